(** Proofs about the tokens of texts. *)
From Coq Require Import Ascii String Bool Arith ZArith NArith Lia List.
From Verif Require Import GoStrings GoStringsProofs JsonModel JsonSpec JsonTextModel JsonTextSpec JsonTextProofs JsonTextProofs2 JsonTextProofs3 JsonLexModel.
Import ListNotations.
Local Open Scope string_scope.

Lemma hex_of_spec c n : hex_value c n -> hex_of c = Some n.
Proof.
  unfold hex_value, hex_of. cbv zeta. generalize (N_of_ascii c). intros x.
  destruct (N.leb_spec 48 x), (N.leb_spec x 57), (N.leb_spec 65 x), (N.leb_spec x 70), (N.leb_spec 97 x), (N.leb_spec x 102); cbn [andb]; intros [[? ->]|[[? ->]|[? ->]]]; try lia; reflexivity.
Qed.
Lemma hex4_of_spec a b c d n : hex4 a b c d n -> hex4_of a b c d = Some n.
Proof.
  intros (i & j & k & l & A & B & C & D & ->). unfold hex4_of. now rewrite (hex_of_spec _ _ A), (hex_of_spec _ _ B), (hex_of_spec _ _ C), (hex_of_spec _ _ D).
Qed.
Lemma utf8_of_spec n s : utf8 n s -> utf8_of n = s.
Proof.
  unfold utf8, utf8_of. destruct (N.ltb_spec n 128), (N.ltb_spec n 2048), (N.ltb_spec n 65536);
    intros [[? ->]|[[? ->]|[[? ->]|[? ->]]]]; try lia; reflexivity.
Qed.
Lemma unescape_spec e c : escapes (N_of_ascii e) (N_of_ascii c) -> unescape e = Some c.
Proof.
  unfold escapes, unescape. cbn [In]. intros H. repeat (destruct H as [H|H]; [injection H as <- E; rewrite E, ascii_N_embedding; reflexivity|]). destruct H.
Qed.

Lemma lex_string_spec b s : string_text b s -> forall rest, lex_string (b ++ String "034" rest) = Some (s, rest).
Proof.
  induction 1 as [|c b s L Q B _ IH|e c b s E _ IH|a1 a2 a3 a4 n u b s H4 NS U _ IH|a1 a2 a3 a4 b1 b2 b3 b4 n m u b s H4 H4' NL ML U _ IH]; intros rest.
  - reflexivity.
  - cbn [append lex_string]. rewrite (proj2 (N.eqb_neq _ _) Q), (proj2 (N.eqb_neq _ _) B). destruct (N.ltb_spec (N_of_ascii c) 32); [lia|]. now rewrite IH.
  - cbn [append lex_string]. change (N_of_ascii "092") with 92%N. change (N.eqb 92 34) with false. change (N.eqb 92 92) with true. cbv iota.
    destruct (N.eqb_spec (N_of_ascii e) 117) as [X|X].
    + exfalso. unfold escapes in E. rewrite X in E. cbn in E. intuition congruence.
    + rewrite (unescape_spec _ _ E), IH. reflexivity.
  - cbn [append lex_string]. change (N_of_ascii "092") with 92%N. change (N.eqb 92 34) with false. change (N.eqb 92 92) with true.
    change (N.eqb (N_of_ascii "u") 117) with true. cbv iota. rewrite (hex4_of_spec _ _ _ _ _ H4). unfold surrogate in NS.
    destruct (N.leb_spec 55296 n), (N.ltb_spec n 57344); cbn [andb]; try lia; now rewrite IH, (utf8_of_spec _ _ U).
  - cbn [append lex_string]. change (N_of_ascii "092") with 92%N. change (N.eqb 92 34) with false. change (N.eqb 92 92) with true.
    change (N_of_ascii "u") with 117%N. change (N.eqb 117 117) with true. cbv iota. rewrite (hex4_of_spec _ _ _ _ _ H4), (hex4_of_spec _ _ _ _ _ H4').
    destruct (N.leb_spec 55296 n), (N.ltb_spec n 57344), (N.ltb_spec n 56320), (N.leb_spec 56320 m), (N.ltb_spec m 57344); cbn [andb]; try lia.
    now rewrite IH, (utf8_of_spec _ _ U).
Qed.

(** Numbers. *)
Lemma digit_char c : 48 <= nat_of_ascii c <= 57 -> is_digit_char c = true.
Proof.
  unfold is_digit_char, nat_of_ascii. intros H. destruct (N.leb_spec 48 (N_of_ascii c)), (N.leb_spec (N_of_ascii c) 57); cbn [andb]; try reflexivity; lia.
Qed.
Definition no_digit (s : string) : Prop := match s with String c _ => is_digit_char c = false | EmptyString => True end.
Lemma skip_digits_app d r : digits d -> no_digit r -> skip_digits (d ++ r) = r.
Proof.
  induction d as [|c d IH]; intros D N.
  - destruct r as [|c r]; [reflexivity|]. cbn [append skip_digits]. cbn in N. now rewrite N.
  - destruct D as [D1 D2]. cbn [append skip_digits]. rewrite (digit_char _ D1). auto.
Qed.
Lemma some_digits_app d r : d <> "" -> digits d -> no_digit r -> some_digits (d ++ r) = Some r.
Proof.
  destruct d as [|c d]; [congruence|]. intros _ [D1 D2] N. cbn [append some_digits]. rewrite (digit_char _ D1). now rewrite skip_digits_app.
Qed.
Lemma is_number_spec s : json_number s -> is_number s = true.
Proof.
  intros (sign & int & frac & exp & -> & S & I & F & E).
  assert (NE : no_digit exp) by (destruct E as [->|(e & d & -> & [->| ->] & _)]; [exact Logic.I|reflexivity|reflexivity]).
  assert (NF : no_digit (frac ++ exp)) by (destruct F as [->|(d & -> & _)]; [exact NE|reflexivity]).
  assert (SE : skip_exponent exp = Some "").
  { destruct E as [->|(e & d & -> & Q & s & d' & -> & J & ND & DD)]; [reflexivity|]. pose proof (some_digits_app d' "" ND DD Logic.I) as X. rewrite sapp_nil_r in X.
    assert (Y : N.eqb (N_of_ascii e) 69 || N.eqb (N_of_ascii e) 101 = true) by (destruct Q as [->| ->]; reflexivity). cbn [skip_exponent]. rewrite Y.
    destruct J as [<-|[<-|[<-|[]]]]; cbn [append]; [|exact X|exact X]. destruct d' as [|c d']; [congruence|].
    assert (Z : N.eqb (N_of_ascii c) 43 || N.eqb (N_of_ascii c) 45 = false).
    { destruct DD as [DD _]. unfold nat_of_ascii in DD. apply orb_false_iff. split; apply N.eqb_neq; intros Z; rewrite Z in DD; cbn in DD; lia. }
    now rewrite Z. }
  assert (SF : skip_fraction (frac ++ exp) = Some exp).
  { destruct F as [->|(d & -> & ND & DD)]; cbn [append].
    - destruct exp as [|c r]; [reflexivity|]. cbn [skip_fraction]. destruct (N.eqb_spec (N_of_ascii c) 46) as [X|]; [|reflexivity]. exfalso.
      destruct E as [E|(e & d & E & Q & _)]; [discriminate|]. injection E as -> _. destruct Q as [->| ->]; discriminate.
    - cbn [skip_fraction]. change (N.eqb (N_of_ascii ".") 46) with true. cbv iota. now apply some_digits_app. }
  assert (SI : skip_integer (int ++ frac ++ exp) = Some (frac ++ exp)%string).
  { destruct I as [->|(c & r & -> & NZ & DD)]; [reflexivity|]. cbn [append skip_integer]. destruct (N.eqb_spec (N_of_ascii c) 48) as [X|_].
    - exfalso. apply NZ. change 48%N with (N_of_ascii "0") in X. now apply ascii_N_inj in X.
    - change (String c (r ++ frac ++ exp)) with (String c r ++ frac ++ exp). apply some_digits_app; [discriminate|assumption|assumption]. }
  unfold is_number.
  assert (SS : match sign ++ int ++ frac ++ exp with String c r => if N.eqb (N_of_ascii c) 45 then r else sign ++ int ++ frac ++ exp | EmptyString => sign ++ int ++ frac ++ exp end = int ++ frac ++ exp).
  { destruct S as [->| ->]; cbn [append].
    - destruct I as [->|(c & r & -> & NZ & [DD _])]; [reflexivity|]. cbn [append]. destruct (N.eqb_spec (N_of_ascii c) 45) as [X|_]; [|reflexivity].
      exfalso. unfold nat_of_ascii in DD. rewrite X in DD. cbn in DD. lia.
    - reflexivity. }
  rewrite SS, SI, SF, SE. reflexivity.
Qed.
Lemma number_char_spec c : number_char c <-> is_number_char c = true.
Proof.
  unfold number_char, is_number_char, is_digit_char. rewrite orb_true_iff, andb_true_iff, !N.leb_le, existsb_exists. split.
  - intros [H|H]; [auto|]. right. exists (N_of_ascii c). split; [assumption|apply N.eqb_refl].
  - intros [H|(x & I & E)]; [auto|]. right. apply N.eqb_eq in E. now rewrite E.
Qed.
Lemma span_number_spec a r : (forall x c y, a = (x ++ String c y)%string -> number_char c) -> no_number r -> span_number (a ++ r) = (a, r).
Proof.
  induction a as [|c a IH]; intros H N.
  - destruct r as [|c r]; [reflexivity|]. cbn [append span_number]. destruct (is_number_char c) eqn:E; [|reflexivity]. apply number_char_spec in E. exfalso. exact (N c r eq_refl E).
  - cbn [append span_number]. rewrite (proj1 (number_char_spec c) (H "" c a eq_refl)). rewrite IH; [reflexivity| |assumption].
    intros x d y ->. apply (H (String c x) d y). reflexivity.
Qed.

Lemma lexes_lex s l : lexes s l -> forall n, String.length s < n -> lex n s = l.
Proof.
  induction 1 as [|c s l C _ IH|s l _ IH|s l _ IH|s l _ IH|s l _ IH|s l _ IH|s l _ IH|s l _ IH|s l _ IH|s l _ IH|a s l N NN _ IH|b c s l ST _ IH]; intros n L; (destruct n as [|n]; [cbn in L; lia|]).
  - reflexivity.
  - cbn [lex]. apply space_cases in C. assert (is_space c = true) as -> by (destruct C as [->|[->|[->| ->]]]; reflexivity). apply IH. cbn in L. lia.
  - cbn. rewrite IH by (cbn in L; lia). reflexivity.
  - cbn. rewrite IH by (cbn in L; lia). reflexivity.
  - cbn. rewrite IH by (cbn in L; lia). reflexivity.
  - cbn. rewrite IH by (cbn in L; lia). reflexivity.
  - cbn. rewrite IH by (cbn in L; lia). reflexivity.
  - cbn. rewrite IH by (cbn in L; lia). reflexivity.
  - cbn. destruct s; cbn; rewrite IH by (cbn in L |- *; lia); reflexivity.
  - cbn. destruct s; cbn; rewrite IH by (cbn in L |- *; lia); reflexivity.
  - cbn. destruct s; cbn; rewrite IH by (cbn in L |- *; lia); reflexivity.
  - destruct (json_number_chars a N) as [C (c & r & E)]. rewrite sapp_length in L.
    assert (SP : span_number (a ++ s) = (a, s)) by (apply span_number_spec; [exact C|assumption]).
    assert (NC : number_char c) by (apply (C "" c r); exact E). subst a. cbn [append] in *. cbn [lex].
    assert (X : forall d, number_char d -> is_space d = false /\ Ascii.eqb d "{" = false /\ Ascii.eqb d "}" = false /\ Ascii.eqb d "[" = false /\ Ascii.eqb d "]" = false /\
       Ascii.eqb d ":" = false /\ Ascii.eqb d "," = false /\ N.eqb (N_of_ascii d) 34 = false).
    { intros d D. assert (Y : forall e, ~ number_char e -> Ascii.eqb d e = false) by (intros e NE; apply Ascii.eqb_neq; intros ->; contradiction).
      assert (Z : forall k, N_of_ascii d = k -> (48 <= k <= 57)%N \/ In k [43; 45; 46; 69; 101]%N) by (intros k <-; exact D).
      repeat split; try (apply Y; intros [K|K]; cbn in K; intuition (discriminate || lia)).
      - unfold is_space. cbn [existsb]. repeat (apply orb_false_iff; split); try reflexivity; apply N.eqb_neq; intros K; apply Z in K; cbn in K; intuition (discriminate || lia).
      - apply N.eqb_neq. intros K. apply Z in K. cbn in K. intuition (discriminate || lia). }
    destruct (X c NC) as (-> & -> & -> & -> & -> & -> & -> & ->). rewrite (proj1 (number_char_spec c) NC). rewrite SP. rewrite (is_number_spec _ N). f_equal. apply IH. cbn [String.length] in L. lia.
  - cbn [lex]. rewrite (lex_string_spec _ _ ST). cbn. rewrite IH; [reflexivity|]. cbn in L. rewrite sapp_length in L. cbn in L. lia.
Qed.

Lemma lex_text_spec s l : lexes s l -> lex_text s = l.
Proof. intros H. apply (lexes_lex _ _ H). unfold lex_text. lia. Qed.

Lemma lex_document text j : json_document text j -> lex_text text = tokens j.
Proof. intros [_ H]. now apply lex_text_spec. Qed.

Lemma lex_written j i : well_formed j -> lex_text (write_tokens i (tokens j)) = tokens j.
Proof. intros H. apply lex_document, document_text, H. Qed.
