(** Proofs about the values of string literals. *)
From Coq Require Import Ascii String Bool Arith ZArith NArith Lia List.
From Verif Require JsonTextSpec JsonLexProofs.
From Verif Require Import GoStrings GoStringsProofs TextModel TextSpec JsonLexModel ReaderModel SyntaxModel SyntaxSpec.
Import ListNotations.
Local Open Scope string_scope.

Lemma hex_of_iff c n : hex_of c = Some n <-> JsonTextSpec.hex_value c n.
Proof.
  split; [|apply JsonLexProofs.hex_of_spec]. unfold JsonTextSpec.hex_value, hex_of. cbv zeta. generalize (N_of_ascii c). intros x.
  destruct (N.leb_spec 48 x), (N.leb_spec x 57), (N.leb_spec 65 x), (N.leb_spec x 70), (N.leb_spec 97 x), (N.leb_spec x 102);
    cbn [andb]; intros [=]; subst; try lia.
Qed.
Lemma hex4_of_iff a b c d n : hex4_of a b c d = Some n <-> JsonTextSpec.hex4 a b c d n.
Proof.
  split; [|apply JsonLexProofs.hex4_of_spec]. unfold hex4_of.
  destruct (hex_of a) as [i|] eqn:A; [|discriminate]. destruct (hex_of b) as [j|] eqn:B; [|discriminate].
  destruct (hex_of c) as [k|] eqn:C; [|discriminate]. destruct (hex_of d) as [l|] eqn:D; [|discriminate].
  intros [= <-]. exists i, j, k, l. rewrite <- !hex_of_iff. auto.
Qed.
Lemma octal_of_iff c n : octal_of c = Some n <-> octal_value c n.
Proof.
  unfold octal_of, octal_value. cbv zeta. generalize (N_of_ascii c). intros x.
  destruct (N.leb_spec 48 x), (N.leb_spec x 55); cbn [andb]; split; intros K; try discriminate; try lia;
    try (injection K as <-); try lia. f_equal. lia.
Qed.
Lemma rune_iff n u : rune n = Some u <-> scalar_value n /\ JsonTextSpec.utf8 n u.
Proof.
  unfold rune, valid_rune, scalar_value. split.
  - destruct (N.ltb_spec n 55296), (N.leb_spec 57344 n), (N.leb_spec n 1114111); cbn [andb orb]; intros H'; try discriminate; injection H' as <-; split; try lia;
    unfold JsonTextSpec.utf8, utf8_of; destruct (N.ltb_spec n 128), (N.ltb_spec n 2048), (N.ltb_spec n 65536); try lia; auto;
    try (now right; left); try (right; right; left; split; [lia|reflexivity]); right; right; right; split; try lia; reflexivity.
  - intros (R & U). apply JsonLexProofs.utf8_of_spec in U as <-.
    destruct (N.ltb_spec n 55296), (N.leb_spec 57344 n), (N.leb_spec n 1114111); cbn [andb orb]; try lia; reflexivity.
Qed.
Lemma simple_escape_iff e c : simple_escape e = Some c <-> In (e, c) escapes.
Proof.
  split.
  - destruct e as [[|] [|] [|] [|] [|] [|] [|] [|]]; cbn; try discriminate; intros [= <-]; auto 20.
  - cbn. intros H. repeat (destruct H as [H|H]; [injection H as <- <-; reflexivity|]). destruct H.
Qed.


(** The text after the first quote. *)
Lemma unquote_body_complete body v : pieces body v -> unquote_body (body ++ String quote_char "") = Some v.
Proof.
  induction 1 as [|a x b y P _ IH]; [reflexivity|]. rewrite GoStringsProofs.sapp_assoc.
  destruct P as [c N B Q|e c E|a b' c i j k A B C L|a b' i j A B|a b' c d n u A S U|a b' c d a' b'' c' d' n m u A B S U]; cbn [append unquote_body].
  - rewrite (proj2 (Ascii.eqb_neq _ _) Q), (proj2 (Ascii.eqb_neq _ _) N).
    destruct (N.eqb_spec (N_of_ascii c) 92) as [X|X].
    + destruct B. rewrite <- (ascii_N_embedding c), X. reflexivity.
    + cbn [negb]. now rewrite IH.
  - change (Ascii.eqb "092" quote_char) with false. change (Ascii.eqb "092" lf) with false. change (N.eqb (N_of_ascii "092") 92) with true. cbv iota. cbn [negb].
    rewrite (proj2 (simple_escape_iff e c) E), IH. reflexivity.
  - change (Ascii.eqb "092" quote_char) with false. change (Ascii.eqb "092" lf) with false. change (N.eqb (N_of_ascii "092") 92) with true. cbv iota. cbn [negb].
    assert (R : (48 <= N_of_ascii a <= 55)%N) by (now destruct A).
    destruct (simple_escape a) as [z|] eqn:Z.
    { apply simple_escape_iff in Z. cbn in Z. repeat (destruct Z as [Z|Z]; [injection Z as <- _; cbn in R; lia|]). destruct Z. }
    destruct (N.eqb_spec (N_of_ascii a) 120); [lia|]. destruct (N.eqb_spec (N_of_ascii a) 117); [lia|]. destruct (N.eqb_spec (N_of_ascii a) 85); [lia|].
    rewrite (proj2 (octal_of_iff _ _) A), (proj2 (octal_of_iff _ _) B), (proj2 (octal_of_iff _ _) C). cbv zeta.
    rewrite (proj2 (N.ltb_lt _ _) L), IH. reflexivity.
  - change (Ascii.eqb "092" quote_char) with false. change (Ascii.eqb "092" lf) with false. change (N.eqb (N_of_ascii "092") 92) with true. cbv iota. cbn [negb].
    change (simple_escape "x") with (@None ascii). change (N.eqb (N_of_ascii "x") 120) with true. cbv iota.
    rewrite (proj2 (hex_of_iff _ _) A), (proj2 (hex_of_iff _ _) B), IH. reflexivity.
  - change (Ascii.eqb "092" quote_char) with false. change (Ascii.eqb "092" lf) with false. change (N.eqb (N_of_ascii "092") 92) with true. cbv iota. cbn [negb].
    change (simple_escape "u") with (@None ascii). change (N.eqb (N_of_ascii "u") 120) with false. change (N.eqb (N_of_ascii "u") 117) with true. cbv iota.
    rewrite (proj2 (hex4_of_iff _ _ _ _ _) A), (proj2 (rune_iff _ _) (conj S U)), IH. reflexivity.
  - change (Ascii.eqb "092" quote_char) with false. change (Ascii.eqb "092" lf) with false. change (N.eqb (N_of_ascii "092") 92) with true. cbv iota. cbn [negb].
    change (simple_escape "U") with (@None ascii). change (N.eqb (N_of_ascii "U") 120) with false. change (N.eqb (N_of_ascii "U") 117) with false.
    change (N.eqb (N_of_ascii "U") 85) with true. cbv iota.
    rewrite (proj2 (hex4_of_iff _ _ _ _ _) A), (proj2 (hex4_of_iff _ _ _ _ _) B), (proj2 (rune_iff _ _) (conj S U)), IH. reflexivity.
Qed.

Lemma unquote_body_sound n : forall s v, String.length s <= n -> unquote_body s = Some v ->
  exists body, s = body ++ String quote_char "" /\ pieces body v.
Proof.
  assert (GO : forall a x (u : string) w s v, piece a x -> s = a ++ u ->
     (forall v, unquote_body u = Some v -> exists body, u = body ++ String quote_char "" /\ pieces body v) ->
     unquote_body u = Some w -> v = x ++ w -> exists body, s = body ++ String quote_char "" /\ pieces body v).
  { intros a x u w s v P -> IH E ->. destruct (IH w E) as (body & -> & B). exists (a ++ body). rewrite GoStringsProofs.sapp_assoc. split; [reflexivity|]. now constructor. }
  induction n as [|n IH]; intros s v L H; destruct s as [|c r]; cbn [String.length] in L; try lia; try discriminate.
  cbn [unquote_body] in H. destruct (Ascii.eqb_spec c quote_char) as [->|Q].
  { destruct (String.eqb_spec r "") as [->|]; [|discriminate]. injection H as <-. exists "". split; [reflexivity|constructor]. }
  destruct (Ascii.eqb_spec c lf) as [|N]; [discriminate|].
  destruct (N.eqb_spec (N_of_ascii c) 92) as [X|X]; cbn [negb] in H.
  - assert (c = "092"%char) as -> by (now rewrite <- (ascii_N_embedding c), X). clear X.
    destruct r as [|e r]; [discriminate|]. cbn [String.length] in L.
    destruct (simple_escape e) as [x|] eqn:SE.
    { destruct (unquote_body r) as [w|] eqn:W; [|discriminate]. injection H as <-.
      eapply (GO (String "092" (String e "")) (String x "") r w); [|reflexivity| |exact W|reflexivity].
      - constructor. now apply simple_escape_iff.
      - intros v. apply IH. lia. }
    destruct (N.eqb_spec (N_of_ascii e) 120) as [Y|Y]; [|destruct (N.eqb_spec (N_of_ascii e) 117) as [Y1|Y1]; [|destruct (N.eqb_spec (N_of_ascii e) 85) as [Y2|Y2]]].
    + assert (e = "x"%char) as -> by (now rewrite <- (ascii_N_embedding e), Y).
      destruct r as [|a [|b r]]; try discriminate. cbn [String.length] in L. destruct (hex_of a) as [i|] eqn:A; [|discriminate]. destruct (hex_of b) as [j|] eqn:B; [|discriminate].
      destruct (unquote_body r) as [w|] eqn:W; [|discriminate]. injection H as <-.
      eapply (GO (String "092" (String "x" (String a (String b "")))) _ r w); [|reflexivity| |exact W|].
      * constructor; apply hex_of_iff; eassumption.
      * intros v. apply IH. lia.
      * reflexivity.
    + assert (e = "u"%char) as -> by (now rewrite <- (ascii_N_embedding e), Y1).
      destruct r as [|a [|b [|x [|d r]]]]; try discriminate. cbn [String.length] in L. destruct (hex4_of a b x d) as [i|] eqn:A; [|discriminate]. destruct (rune i) as [u|] eqn:U; [|discriminate].
      destruct (unquote_body r) as [w|] eqn:W; [|discriminate]. injection H as <-. apply rune_iff in U as (U1 & U2). apply hex4_of_iff in A.
      eapply (GO (String "092" (String "u" (String a (String b (String x (String d "")))))) _ r w); [|reflexivity| |exact W|].
      * econstructor; eassumption.
      * intros v. apply IH. lia.
      * reflexivity.
    + assert (e = "U"%char) as -> by (now rewrite <- (ascii_N_embedding e), Y2).
      destruct r as [|a [|b [|x [|d [|a' [|b' [|x' [|d' r]]]]]]]]; try discriminate. cbn [String.length] in L. destruct (hex4_of a b x d) as [i|] eqn:A; [|discriminate].
      destruct (hex4_of a' b' x' d') as [j|] eqn:A'; [|discriminate]. destruct (rune (i * 65536 + j)) as [u|] eqn:U; [|discriminate].
      destruct (unquote_body r) as [w|] eqn:W; [|discriminate]. injection H as <-. apply rune_iff in U as (U1 & U2). apply hex4_of_iff in A. apply hex4_of_iff in A'.
      eapply (GO (String "092" (String "U" (String a (String b (String x (String d (String a' (String b' (String x' (String d' "")))))))))) _ r w); [|reflexivity| |exact W|].
      * econstructor; eassumption.
      * intros v. apply IH. lia.
      * reflexivity.
    + destruct r as [|a [|b r]]; try discriminate. cbn [String.length] in L. destruct (octal_of e) as [i|] eqn:E; [|discriminate]. destruct (octal_of a) as [j|] eqn:A; [|discriminate]. destruct (octal_of b) as [k|] eqn:B; [|discriminate].
      cbv zeta in H. destruct (N.ltb_spec ((i * 8 + j) * 8 + k) 256) as [LT|]; [|discriminate].
      destruct (unquote_body r) as [w|] eqn:W; [|discriminate]. injection H as <-.
      eapply (GO (String "092" (String e (String a (String b "")))) _ r w); [|reflexivity| |exact W|].
      * constructor; try (apply octal_of_iff; eassumption). exact LT.
      * intros v. apply IH. lia.
      * reflexivity.
  - destruct (unquote_body r) as [w|] eqn:W; [|discriminate]. injection H as <-.
    eapply (GO (String c "") (String c "") r w); [|reflexivity| |exact W|reflexivity].
    + constructor; try assumption. intros ->. now apply X.
    + intros v. apply IH. lia.
Qed.

(** Texts until a character. *)
Lemma until_char_sound q s a b : until_char q s = Some (a, b) -> exists x, s = a ++ b /\ a = x ++ String q "" /\ ~ occurs q x.
Proof.
  revert a b. induction s as [|c s IH]; intros a b; cbn; [discriminate|]. destruct (Ascii.eqb_spec c q) as [->|N].
  - intros [= <- <-]. exists "". repeat split; try reflexivity. intros (x & y & E). destruct x; discriminate.
  - destruct (until_char q s) as [(a', b')|]; [|discriminate]. intros [= <- <-]. destruct (IH a' b' eq_refl) as (x & -> & -> & O).
    exists (String c x). repeat split; try reflexivity. intros (y & z & E). destruct y as [|d y].
    + injection E as -> _. now apply N.
    + injection E as _ ->. apply O. now exists y, z.
Qed.
Lemma until_char_complete q x b : ~ occurs q x -> until_char q (x ++ String q b) = Some (x ++ String q "", b).
Proof.
  induction x as [|c x IH]; intros O; cbn.
  - now rewrite Ascii.eqb_refl.
  - destruct (Ascii.eqb_spec c q) as [->|N].
    + destruct O. now exists "", x.
    + rewrite IH; [reflexivity|]. intros (y & z & ->). apply O. now exists (String c y), z.
Qed.
Lemma remove_char_iff c s r : remove_char c s = r <-> without c s r.
Proof.
  split.
  - intros <-. induction s as [|d s IH]; cbn; [constructor|]. destruct (Ascii.eqb_spec d c) as [->|N]; constructor; assumption.
  - induction 1 as [|s r _ IH|d s r N _ IH]; cbn; [reflexivity| |].
    + now rewrite Ascii.eqb_refl.
    + rewrite (proj2 (Ascii.eqb_neq _ _) N). now rewrite IH.
Qed.

Lemma unquote_iff s v : unquote s = Some v <-> denotes s v.
Proof.
  split.
  - destruct s as [|q r]; cbn [unquote]; [discriminate|]. destruct (Ascii.eqb_spec q back_quote) as [->|N].
    + destruct (until_char back_quote r) as [(a, b)|] eqn:U; [|discriminate]. destruct (String.eqb_spec b "") as [->|]; [|discriminate].
      intros [= <-]. apply until_char_sound in U as (x & -> & -> & O). rewrite GoStringsProofs.sapp_nil_r, GoStringsProofs.sapp_length. cbn [String.length].
      replace (String.length x + 1 - 1) with (String.length x) by lia. rewrite GoStringsProofs.str_take_app_length.
      constructor; [assumption|]. now apply remove_char_iff.
    + destruct (Ascii.eqb_spec q quote_char) as [->|]; [|discriminate]. intros H. destruct (unquote_body_sound _ r v (le_n _) H) as (body & -> & P).
      now constructor.
  - intros [body w P|body w O W].
    + cbn [unquote]. change (Ascii.eqb quote_char back_quote) with false. change (Ascii.eqb quote_char quote_char) with true. cbv iota.
      now apply unquote_body_complete.
    + cbn [unquote]. change (Ascii.eqb back_quote back_quote) with true. cbv iota. rewrite until_char_complete by assumption. cbn [String.eqb].
      rewrite GoStringsProofs.sapp_length. cbn [String.length].
      replace (String.length body + 1 - 1) with (String.length body) by lia. rewrite GoStringsProofs.str_take_app_length. f_equal. now apply remove_char_iff.
Qed.
Lemma denotes_unique s v v' : denotes s v -> denotes s v' -> v = v'.
Proof. intros A B. apply unquote_iff in A, B. congruence. Qed.
