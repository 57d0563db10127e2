(** Proofs about the lexer and the parser of complete texts. *)
From Coq Require Import Ascii String Bool Arith ZArith NArith Lia List.
From Verif Require Import GoStrings GoStringsProofs TextModel TextSpec TextProofs ReaderModel SyntaxModel SyntaxSpec SyntaxProofs SyntaxProofs2 SyntaxProofs3 SyntaxProofs4 SyntaxProofs5 SyntaxProofs6.
Import ListNotations.
Local Open Scope string_scope.

Lemma lines_in_newlines s : lines_in s = newlines s.
Proof.
  induction s as [|c s IH]; [reflexivity|]. unfold newlines in *. cbn [lines_in list_ascii_of_string count_occ]. rewrite IH.
  destruct (Ascii.eqb_spec c lf) as [->|N]; destruct (ascii_dec _ lf) as [E|E]; try reflexivity; congruence.
Qed.
Lemma newlines_app a b : newlines (a ++ b) = newlines a + newlines b.
Proof.
  unfold newlines. induction a as [|c a IH]; [reflexivity|]. cbn [append list_ascii_of_string count_occ]. rewrite IH. now destruct (ascii_dec c lf).
Qed.
Lemma newlines_none a : ~ occurs lf a -> newlines a = 0.
Proof.
  unfold newlines. induction a as [|c a IH]; intros O; [reflexivity|]. cbn [list_ascii_of_string count_occ]. destruct (ascii_dec c lf) as [->|].
  - destruct O. apply occurs_cons. now left.
  - apply IH. intros K. apply O. apply occurs_cons. now right.
Qed.
Lemma newlines_line a : matches LineRule a -> newlines a = 0.
Proof. intros (x & -> & _ & O). apply newlines_none. intros K. apply occurs_app in K as [K|K]; [|tauto]. cbn in K. rewrite !occurs_cons in K. destruct K as [K|[K|K]]; try discriminate. now apply occurs_nil in K. Qed.

Definition finishes (n : nat) (s rest : string) (e : lex_end) : Prop :=
  (rest = "" /\ e = AtEnd) \/ (stuck rest /\ exists p, s = p ++ rest /\ e = LexError (n + newlines p)).

Lemma matches_nonempty r a : matches r a -> a <> "".
Proof. intros M ->. destruct (matches_first r _ M) as (c & x & E & _). discriminate. Qed.
Lemma takes_shorter s r a b : takes s r a b -> String.length b < String.length s.
Proof. intros (-> & M & _). apply matches_nonempty in M. rewrite sapp_length. destruct a; [easy|]. cbn. lia. Qed.
Lemma finishes_step n a b rest e : finishes (n + newlines a) b rest e -> finishes n (a ++ b) rest e.
Proof.
  intros [H|(S & p & -> & ->)]; [now left|]. right. split; [assumption|]. exists (a ++ p). rewrite sapp_assoc. split; [reflexivity|]. rewrite newlines_app. f_equal. lia.
Qed.

Lemma lex_loop_sound fuel : forall n s, String.length s < fuel -> exists ts cs rest e,
  lex_loop fuel n s = MkLexed ts cs e /\ lexes n s ts cs rest /\ finishes n s rest e.
Proof.
  induction fuel as [|fuel IH]; intros n s L; [lia|]. cbn [lex_loop]. destruct s as [|c x].
  { exists [], [], "", AtEnd. repeat split; [constructor|now left]. }
  assert (NE : String c x <> "") by discriminate. revert NE L. generalize (String c x). intros s NE L. destruct (lex_one s) as [((k, a), b)|] eqn:E.
  - apply lex_one_sound in E as (r & T & K). pose proof (takes_shorter _ _ _ _ T) as Sh.
    destruct (IH (n + lines_in a) b) as (ts & cs & rest & e & -> & X & F); [lia|]. rewrite lines_in_newlines in *. cbn [lx_tokens lx_comments lx_end].
    pose proof T as (-> & M & _). apply finishes_step in F.
    destruct K as [r a t Y _|a|a|a].
    + exists ((n, t) :: ts), cs, rest, e. repeat split; try assumption. now apply (lexes_token _ _ r a b).
    + exists ts, ((n, a) :: cs), rest, e. repeat split; try assumption. apply (lexes_comment _ _ a b); [assumption|]. rewrite (newlines_line a M), Nat.add_0_r in X. assumption.
    + exists ts, cs, rest, e. repeat split; try assumption. apply (lexes_skip _ _ BlockRule a b); auto.
    + exists ts, cs, rest, e. repeat split; try assumption. apply (lexes_skip _ _ SpaceRule a b); auto.
  - exists [], [], s, (LexError n). repeat split; [constructor|]. right.
    split; [apply lex_one_none; assumption|]. exists "". split; [reflexivity|]. unfold newlines. cbn. f_equal. lia.
Qed.
Lemma lex_loop_unfold fuel n s : s <> "" -> lex_loop (S fuel) n s =
  match lex_one s with
  | None => MkLexed [] [] (LexError n)
  | Some (k, a, b) =>
      let l := lex_loop fuel (n + lines_in a) b in
      match k with
      | LToken t => MkLexed ((n, t) :: lx_tokens l) (lx_comments l) (lx_end l)
      | LComment => MkLexed (lx_tokens l) ((n, a) :: lx_comments l) (lx_end l)
      | LSkip => l
      end
  end.
Proof. now destruct s. Qed.
Lemma takes_nonempty s r a b : takes s r a b -> s <> "".
Proof. intros T ->. apply takes_shorter in T. cbn in T. lia. Qed.
Lemma finishes_unstep n a b rest e l c ts : lexes (n + newlines a) b ts c l -> True -> finishes n (a ++ b) rest e -> (exists p, b = p ++ rest) -> finishes (n + newlines a) b rest e.
Proof.
  intros _ _ [H|(S & p & E & ->)] (q & ->); [now left|]. right. split; [assumption|]. exists q. split; [reflexivity|].
  rewrite <- sapp_assoc in E. assert (p = a ++ q) as ->.
  { apply (f_equal String.length) in E as LL. rewrite !sapp_length in LL. apply sapp_inv_length in E as (E & _); [now rewrite E|]. rewrite sapp_length. lia. }
  rewrite newlines_app. f_equal. lia.
Qed.
Lemma lexes_suffix n s ts c rest : lexes n s ts c rest -> exists p, s = p ++ rest.
Proof.
  induction 1 as [n s|n s r a b t l c rest T Y _ (p & ->)|n s a b l c rest T _ (p & ->)|n s r a b l c rest T R _ (p & ->)]; [now exists ""| | |];
  destruct T as (-> & _); exists (a ++ p); now rewrite sapp_assoc.
Qed.
Lemma lex_loop_complete n s ts cs rest : lexes n s ts cs rest -> forall fuel e, String.length s < fuel -> finishes n s rest e -> lex_loop fuel n s = MkLexed ts cs e.
Proof.
  induction 1 as [n s|n s r a b t l c rest T Y L IH|n s a b l c rest T L IH|n s r a b l c rest T R L IH]; intros fuel e F E; (destruct fuel as [|fuel]; [lia|]).
  - destruct E as [(-> & ->)|(S & p & E & ->)]; [reflexivity|]. rewrite lex_loop_unfold by (now destruct S). destruct S as (N & S).
    rewrite (proj2 (lex_one_none s N)) by (now split). f_equal. f_equal.
    assert (p = "") as -> by (apply (f_equal String.length) in E; rewrite sapp_length in E; destruct p; [reflexivity|]; cbn in E; lia). unfold newlines. cbn. lia.
  - rewrite lex_loop_unfold by (now apply takes_nonempty in T). destruct (lex_one_complete _ _ _ _ T) as (k & K & ->). pose proof (takes_shorter _ _ _ _ T) as Sh.
    rewrite lines_in_newlines. destruct T as (-> & _). rewrite (IH fuel e); [|lia|eapply finishes_unstep; eauto; now apply lexes_suffix in L].
    cbn. destruct Y; inversion K as [? ? ? Y' _| | |]; inversion Y'; reflexivity.
  - rewrite lex_loop_unfold by (now apply takes_nonempty in T). destruct (lex_one_complete _ _ _ _ T) as (k & K & ->). pose proof (takes_shorter _ _ _ _ T) as Sh.
    destruct T as (-> & M & _). rewrite lines_in_newlines, (newlines_line a M), Nat.add_0_r. rewrite (IH fuel e).
    + cbn. inversion K as [? ? ? Y' _| | |]; [inversion Y'|reflexivity].
    + lia.
    + replace n with (n + newlines a) by (rewrite (newlines_line a M); lia). eapply (finishes_unstep n a b rest e); [|exact I|assumption|now apply lexes_suffix in L].
      rewrite (newlines_line a M), Nat.add_0_r. exact L.
  - rewrite lex_loop_unfold by (now apply takes_nonempty in T). destruct (lex_one_complete _ _ _ _ T) as (k & K & ->). pose proof (takes_shorter _ _ _ _ T) as Sh.
    rewrite lines_in_newlines. destruct T as (-> & _). rewrite (IH fuel e); [|lia|eapply finishes_unstep; eauto; now apply lexes_suffix in L].
    destruct R as [->| ->]; inversion K as [? ? ? Y' _| | |]; try reflexivity; inversion Y'.
Qed.
Lemma lex_file_sound s : exists ts cs rest e, lex_file s = MkLexed ts cs e /\ lexes 1 s ts cs rest /\ finishes 1 s rest e.
Proof. apply lex_loop_sound. lia. Qed.
Lemma lex_file_complete s ts cs rest e : lexes 1 s ts cs rest -> finishes 1 s rest e -> lex_file s = MkLexed ts cs e.
Proof. intros L F. unfold lex_file. eapply lex_loop_complete; eauto. Qed.

(** Complete texts. *)
Lemma not_next_iff r : not_next first_decl r <-> r = [] \/ exists n t l, r = (n, t) :: l /\ ~ opens_decl t.
Proof.
  unfold not_next. destruct r as [|(n, t) l]; cbn; [intuition|]. split.
  - intros H. right. exists n, t, l. split; [reflexivity|]. rewrite <- first_decl_iff. congruence.
  - intros [H|(n' & t' & l' & E & H)]; [discriminate|]. injection E as <- <- <-. rewrite <- first_decl_iff in H. now destruct (first_decl t).
Qed.
Lemma parse_iff s ds ign c : parse_text s = Parsed ds ign c <-> reads s ds ign c.
Proof.
  split.
  - destruct (lex_file_sound s) as (ts & cs & rest & e & E & L & F). unfold parse_text. rewrite E. cbn [lx_tokens lx_comments lx_end].
    destruct (p_file ts) as [l r| |] eqn:P; try discriminate. apply file_iff in P as (pre & -> & G & N). apply not_next_iff in N.
    intros H. assert (l = ds /\ r = ign /\ cs = c /\ (r = [] -> e = AtEnd)) as (-> & -> & -> & Z).
    { destruct r; destruct e; try discriminate; injection H as -> <- ->; auto; repeat split; discriminate. }
    exists pre, rest. split; [assumption|]. split; [assumption|]. split.
    + destruct F as [(F & _)|(F & _)]; auto.
    + destruct N as [->|N]; [left|now right]. split; [reflexivity|]. destruct F as [(F & _)|(F & p & _ & E')]; [assumption|]. rewrite (Z eq_refl) in E'. discriminate.
  - intros (ts & tail & L & G & T & N).
    assert (exists e, finishes 1 s tail e /\ (tail = "" -> e = AtEnd) /\ e <> LexFuel) as (e & F & EE & NF).
    { destruct T as [->|T].
      - exists AtEnd. repeat split; try discriminate. now left.
      - destruct (lexes_suffix _ _ _ _ _ L) as (p & ->). exists (LexError (1 + newlines p)). repeat split; try discriminate.
        + right. split; [assumption|]. now exists p.
        + intros ->. now destruct T. }
    unfold parse_text. rewrite (lex_file_complete _ _ _ _ _ L F). cbn [lx_tokens lx_comments lx_end].
    assert (NN : not_next first_decl ign) by (apply not_next_iff; destruct N as [(-> & _)|N]; auto).
    rewrite (file_complete _ _ _ G NN). destruct N as [(-> & ->)|(n & t & r & -> & _)].
    + now rewrite (EE eq_refl).
    + now destruct e.
Qed.
Lemma parse_fuel s : parse_text s <> ParseFuel.
Proof.
  destruct (lex_file_sound s) as (ts & cs & rest & e & E & L & F). unfold parse_text. rewrite E. cbn [lx_tokens lx_comments lx_end].
  pose proof (file_fuel ts) as P. destruct (p_file ts) as [l r| |]; try discriminate; [|easy].
  assert (e <> LexFuel) by (destruct F as [(_ & ->)|(_ & p & _ & ->)]; discriminate). destruct r, e; try discriminate; easy.
Qed.
Lemma parse_error_iff s : parse_text s = SyntaxError <-> forall ds ign c, ~ reads s ds ign c.
Proof.
  split.
  - intros E ds ign c R. apply parse_iff in R. congruence.
  - intros N. pose proof (parse_fuel s) as F. destruct (parse_text s) as [ds ign c| |] eqn:E; [|reflexivity|easy]. apply parse_iff in E. now apply N in E.
Qed.
Lemma reads_unique s ds ds' ign ign' c c' : reads s ds ign c -> reads s ds' ign' c' -> ds = ds' /\ ign = ign' /\ c = c'.
Proof. intros A B. apply parse_iff in A, B. rewrite A in B. injection B as <- <- <-. now repeat split. Qed.
