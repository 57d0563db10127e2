(** Proofs that the tokens found in any text are the tokens of the part of it that has been read. *)
From Coq Require Import Ascii String Bool Arith ZArith NArith Lia List.
From Verif Require Import GoStrings GoStringsProofs JsonModel JsonSpec JsonTextModel JsonTextSpec JsonTextProofs JsonTextProofs2 JsonTextProofs3 JsonLexModel JsonLexProofs.
Import ListNotations.
Local Open Scope string_scope.

Lemma hex_of_inv c n : hex_of c = Some n -> hex_value c n.
Proof.
  unfold hex_value, hex_of. cbv zeta. generalize (N_of_ascii c). intros x.
  destruct (N.leb_spec 48 x), (N.leb_spec x 57), (N.leb_spec 65 x), (N.leb_spec x 70), (N.leb_spec 97 x), (N.leb_spec x 102); cbn [andb]; intros E; try discriminate; injection E as <-; lia.
Qed.
Lemma hex_bound c n : hex_value c n -> (n < 16)%N.
Proof. unfold hex_value. cbv zeta. lia. Qed.
Lemma hex4_of_inv a b c d n : hex4_of a b c d = Some n -> hex4 a b c d n.
Proof.
  unfold hex4_of. destruct (hex_of a) as [i|] eqn:A, (hex_of b) as [j|] eqn:B, (hex_of c) as [k|] eqn:C, (hex_of d) as [l|] eqn:D; try discriminate.
  intros E. injection E as <-. exists i, j, k, l. repeat (split; [now apply hex_of_inv|]). reflexivity.
Qed.
Lemma hex4_bound a b c d n : hex4 a b c d n -> (n < 65536)%N.
Proof. intros (i & j & k & l & A & B & C & D & ->). apply hex_bound in A, B, C, D. lia. Qed.
Lemma utf8_of_inv n : (n < 1114112)%N -> utf8 n (utf8_of n).
Proof. unfold utf8, utf8_of. intros L. destruct (N.ltb_spec n 128); [left; auto|]. destruct (N.ltb_spec n 2048); [right; left; auto|]. destruct (N.ltb_spec n 65536); [right; right; left; auto|right; right; right; auto]. Qed.
Lemma unescape_inv e c : unescape e = Some c -> escapes (N_of_ascii e) (N_of_ascii c).
Proof.
  unfold escapes. intros H.
  assert (X : In (N_of_ascii e, c) (map (fun p => (fst p, ascii_of_N (snd p))) [(34, 34); (92, 92); (47, 47); (98, 8); (102, 12); (110, 10); (114, 13); (116, 9)]%N)).
  { destruct e as [[] [] [] [] [] [] [] []]; vm_compute in H; try discriminate; injection H as <-; vm_compute; tauto. }
  apply in_map_iff in X as ([x y] & E & I). injection E as <- <-. cbn [fst snd] in *. cbn [In] in I.
  repeat (destruct I as [I|I]; [injection I as <- <-; vm_compute; tauto|]). destruct I.
Qed.

Lemma ascii_is c n : N_of_ascii c = n -> c = ascii_of_N n.
Proof. intros <-. now rewrite ascii_N_embedding. Qed.

Lemma lex_string_inv n : forall s x rest, String.length s < n -> lex_string s = Some (x, rest) -> exists b, s = b ++ String "034" rest /\ string_text b x.
Proof.
  induction n as [|n IH]; intros s x rest L H; [lia|]. destruct s as [|c r]; [discriminate|]. cbn [lex_string] in H. cbn [String.length] in L.
  destruct (N.eqb_spec (N_of_ascii c) 34) as [Q|Q].
  { injection H as <- <-. apply ascii_is in Q as ->. exists "". split; [reflexivity|constructor]. }
  destruct (N.eqb_spec (N_of_ascii c) 92) as [B|B].
  - apply ascii_is in B as ->. change (ascii_of_N 92) with "092"%char. destruct r as [|e r1]; [discriminate|]. cbn [String.length] in L. destruct (N.eqb_spec (N_of_ascii e) 117) as [U|U].
    + apply ascii_is in U as ->. change (ascii_of_N 117) with "u"%char. destruct r1 as [|a1 [|a2 [|a3 [|a4 r2]]]]; try discriminate. cbn [String.length] in L.
      destruct (hex4_of a1 a2 a3 a4) as [k|] eqn:H4; [|discriminate]. apply hex4_of_inv in H4. pose proof (hex4_bound _ _ _ _ _ H4) as K.
      destruct (N.leb_spec 55296 k) as [K1|K1]; [destruct (N.ltb_spec k 57344) as [K2|K2]|]; cbn [andb] in H.
      * destruct r2 as [|q1 [|q2 [|b1 [|b2 [|b3 [|b4 r3]]]]]]; try discriminate. cbn [String.length] in L.
        destruct (hex4_of b1 b2 b3 b4) as [m|] eqn:M4; [|discriminate]. apply hex4_of_inv in M4.
        destruct (N.eqb_spec (N_of_ascii q1) 92) as [Q1|]; [|discriminate]. destruct (N.eqb_spec (N_of_ascii q2) 117) as [Q2|]; [|discriminate].
        destruct (N.ltb_spec k 56320); [|discriminate]. destruct (N.leb_spec 56320 m); [|discriminate]. destruct (N.ltb_spec m 57344); [|discriminate]. cbn [andb] in H.
        apply ascii_is in Q1 as ->. apply ascii_is in Q2 as ->.
        remember (65536 + (k - 55296) * 1024 + (m - 56320))%N as z eqn:Z in H. assert (ZL : (z < 1114112)%N) by lia. destruct (lex_string r3) as [[y w]|] eqn:R; [|discriminate]. unfold prepend in H. injection H as <- <-.
        destruct (IH r3 y w ltac:(lia) R) as (b & -> & T).
        exists (String "092" (String "u" (String a1 (String a2 (String a3 (String a4 (String "092" (String "u" (String b1 (String b2 (String b3 (String b4 b)))))))))))). split; [reflexivity|].
        apply (st_pair a1 a2 a3 a4 b1 b2 b3 b4 k m); [exact H4|exact M4|lia|lia| |exact T]. rewrite <- Z. now apply utf8_of_inv.
      * destruct (lex_string r2) as [[y w]|] eqn:R; [|discriminate]. unfold prepend in H. injection H as <- <-. destruct (IH r2 y w ltac:(lia) R) as (b & -> & T).
        exists (String "092" (String "u" (String a1 (String a2 (String a3 (String a4 b)))))). split; [reflexivity|]. apply (st_unicode a1 a2 a3 a4 k); auto; [unfold surrogate; lia|apply utf8_of_inv; lia].
      * destruct (lex_string r2) as [[y w]|] eqn:R; [|discriminate]. unfold prepend in H. injection H as <- <-. destruct (IH r2 y w ltac:(lia) R) as (b & -> & T).
        exists (String "092" (String "u" (String a1 (String a2 (String a3 (String a4 b)))))). split; [reflexivity|]. apply (st_unicode a1 a2 a3 a4 k); auto; [unfold surrogate; lia|apply utf8_of_inv; lia].
    + destruct (unescape e) as [z|] eqn:E; [|discriminate]. destruct (lex_string r1) as [[y w]|] eqn:R; [|discriminate]. unfold prepend in H. injection H as <- <-.
      destruct (IH r1 y w ltac:(lia) R) as (b & -> & T). exists (String "092" (String e b)). split; [reflexivity|]. apply st_escape; [now apply unescape_inv|exact T].
  - destruct (N.ltb_spec (N_of_ascii c) 32); [discriminate|]. destruct (lex_string r) as [[y w]|] eqn:R; [|discriminate]. unfold prepend in H. injection H as <- <-.
    destruct (IH r y w ltac:(lia) R) as (b & -> & T). exists (String c b). split; [reflexivity|]. now apply st_char.
Qed.

(** Numbers. *)
Lemma digit_char_inv c : is_digit_char c = true -> 48 <= nat_of_ascii c <= 57.
Proof. unfold is_digit_char, nat_of_ascii. rewrite andb_true_iff, !N.leb_le. lia. Qed.
Lemma skip_digits_inv s : exists d, s = d ++ skip_digits s /\ digits d.
Proof.
  induction s as [|c s (d & E & D)]; [now exists ""|]. cbn [skip_digits]. destruct (is_digit_char c) eqn:C; [|now exists ""].
  exists (String c d). split; [cbn [append]; now rewrite <- E|]. split; [now apply digit_char_inv|exact D].
Qed.
Lemma some_digits_inv s r : some_digits s = Some r -> exists d, s = d ++ r /\ d <> "" /\ digits d.
Proof.
  destruct s as [|c s]; [discriminate|]. cbn [some_digits]. destruct (is_digit_char c) eqn:C; [|discriminate]. intros E. injection E as <-. destruct (skip_digits_inv s) as (d & E & D).
  exists (String c d). split; [cbn [append]; now rewrite <- E|]. split; [discriminate|]. split; [now apply digit_char_inv|exact D].
Qed.
Lemma is_number_inv s : is_number s = true -> json_number s.
Proof.
  unfold is_number. intros H.
  assert (exists sign s', s = sign ++ s' /\ (sign = "" \/ sign = "-") /\
    match skip_integer s' with None => false | Some s => match skip_fraction s with None => false | Some s => match skip_exponent s with Some "" => true | _ => false end end end = true) as (sign & s' & -> & SG & H').
  { destruct s as [|c r]; [discriminate|]. destruct (N.eqb_spec (N_of_ascii c) 45) as [X|X].
    - apply ascii_is in X as ->. exists "-", r. auto.
    - exists "", (String c r). auto. }
  clear H. destruct (skip_integer s') as [s1|] eqn:SI; [|discriminate]. destruct (skip_fraction s1) as [s2|] eqn:SF; [|discriminate]. destruct (skip_exponent s2) as [[|]|] eqn:SE; try discriminate.
  assert (exists int, s' = int ++ s1 /\ (int = "0" \/ exists c r, int = String c r /\ c <> "0"%char /\ digits int)) as (int & -> & I).
  { destruct s' as [|c r]; [discriminate|]. cbn [skip_integer] in SI. destruct (N.eqb_spec (N_of_ascii c) 48) as [X|X].
    - injection SI as <-. apply ascii_is in X as ->. exists "0". auto.
    - apply some_digits_inv in SI as (d & E & ND & DD). destruct d as [|c' d]; [congruence|]. exists (String c' d). split; [exact E|]. right. exists c', d. split; [reflexivity|]. split; [|exact DD].
      injection E as <- _. intros ->. now apply X. }
  assert (exists frac, s1 = frac ++ s2 /\ (frac = "" \/ exists d, frac = String "." d /\ d <> "" /\ digits d)) as (frac & -> & F).
  { destruct s1 as [|c r]; cbn [skip_fraction] in SF; [injection SF as <-; exists ""; auto|]. destruct (N.eqb_spec (N_of_ascii c) 46) as [X|X]; [|injection SF as <-; exists ""; auto].
    apply ascii_is in X as ->. apply some_digits_inv in SF as (d & -> & ND & DD). exists (String "." d). split; [reflexivity|]. right. exists d. auto. }
  exists sign, int, frac, s2. split; [reflexivity|]. split; [exact SG|]. split; [exact I|]. split; [exact F|].
  destruct s2 as [|c r]; [now left|]. right. cbn [skip_exponent] in SE. destruct (N.eqb (N_of_ascii c) 69 || N.eqb (N_of_ascii c) 101) eqn:X; [|discriminate]. exists c, r. split; [reflexivity|]. split.
  { apply orb_true_iff in X as [X|X]; apply N.eqb_eq, ascii_is in X as ->; auto. }
  destruct r as [|d r']; [discriminate|]. destruct (N.eqb (N_of_ascii d) 43 || N.eqb (N_of_ascii d) 45) eqn:Y.
  - apply some_digits_inv in SE as (k & -> & NK & DK). rewrite sapp_nil_r. exists (String d ""), k. split; [reflexivity|]. split; [|auto].
    apply orb_true_iff in Y as [Y|Y]; apply N.eqb_eq, ascii_is in Y as ->; cbn; auto.
  - apply some_digits_inv in SE as (k & E & NK & DK). rewrite sapp_nil_r in E. exists "", k. split; [exact E|]. split; [now left|auto].
Qed.
Lemma span_number_inv s : forall a r, span_number s = (a, r) -> s = a ++ r /\ no_number r.
Proof.
  induction s as [|c s IH]; intros a r H; cbn [span_number] in H.
  - injection H as <- <-. split; [reflexivity|]. intros c r E. discriminate.
  - destruct (is_number_char c) eqn:C.
    + destruct (span_number s) as [x y]. injection H as <- <-. destruct (IH x y eq_refl) as (-> & N). split; [reflexivity|exact N].
    + injection H as <- <-. split; [reflexivity|]. intros d r E. injection E as <- <-. rewrite number_char_spec. congruence.
Qed.

Lemma no_number_prefix u rest : no_number (u ++ rest) -> no_number u.
Proof. intros N c r ->. exact (N c (r ++ rest) eq_refl). Qed.

(** The text that has been read, and the rest. *)
Lemma lex_inv n : forall s, String.length s < n -> exists u rest, s = u ++ rest /\ lexes u (lex n s) /\ (rest = "" \/ forall l, ~ lexes rest l).
Proof.
  induction n as [|n IH]; intros s L; [lia|].
  destruct s as [|c r]; [exists "", ""; split; [reflexivity|]; split; [constructor|now left]|]. cbn [String.length] in L.
  assert (One : forall k, (forall s l, lexes s l -> lexes (String c s) (k :: l)) -> exists u rest, String c r = u ++ rest /\ lexes u (k :: lex n r) /\ (rest = "" \/ forall l, ~ lexes rest l)).
  { intros k K. destruct (IH r ltac:(lia)) as (u & rest & E & Lx & R). exists (String c u), rest. split; [cbn [append]; now rewrite <- E|]. split; [now apply K|exact R]. }
  assert (Word : forall w k d, has_prefix (String c r) w = true -> String.length w = S d -> (forall s l, lexes s l -> lexes (w ++ s) (k :: l)) ->
    exists u rest, String c r = u ++ rest /\ lexes u (k :: lex n (str_drop (S d) (String c r))) /\ (rest = "" \/ forall l, ~ lexes rest l)).
  { intros w k d P D K. apply has_prefix_spec in P as (q & P). rewrite P, <- D, str_drop_app_length. assert (String.length q < n).
    { apply (f_equal String.length) in P. rewrite sapp_length in P. cbn [String.length] in P. lia. }
    destruct (IH q H) as (u & rest & -> & Lx & R). exists (w ++ u), rest. split; [now rewrite sapp_assoc|]. split; [now apply K|exact R]. }
  assert (Stop : lex (S n) (String c r) = [] -> is_space c = false -> exists u rest, String c r = u ++ rest /\ lexes u [] /\ (rest = "" \/ forall l, ~ lexes rest l)).
  { intros E S. exists "", (String c r). split; [reflexivity|]. split; [constructor|]. right. intros l H. pose proof (lexes_lex _ _ H (Datatypes.S n) ltac:(cbn; lia)) as X. rewrite E in X. subst l.
    inversion H; subst. match goal with J : json_space c |- _ => apply space_cases in J; destruct J as [->|[->|[->| ->]]]; discriminate S end. }
  pose proof Stop as Stop'. cbn [lex] in Stop' |- *.
  destruct (is_space c) eqn:Sp.
  { destruct (IH r ltac:(lia)) as (u & rest & E & Lx & R). exists (String c u), rest. split; [cbn [append]; now rewrite <- E|]. split; [|exact R]. apply lx_space; [|exact Lx].
    unfold json_space. unfold is_space in Sp. apply existsb_exists in Sp as (x & I & E'). apply N.eqb_eq in E'. now rewrite E'. }
  destruct (Ascii.eqb_spec c "{") as [->|]; [apply One; intros; now constructor|]. destruct (Ascii.eqb_spec c "}") as [->|]; [apply One; intros; now constructor|].
  destruct (Ascii.eqb_spec c "[") as [->|]; [apply One; intros; now constructor|]. destruct (Ascii.eqb_spec c "]") as [->|]; [apply One; intros; now constructor|].
  destruct (Ascii.eqb_spec c ":") as [->|]; [apply One; intros; now constructor|]. destruct (Ascii.eqb_spec c ",") as [->|]; [apply One; intros; now constructor|].
  destruct (N.eqb_spec (N_of_ascii c) 34) as [Q|Q].
  { destruct (lex_string r) as [[x rest]|] eqn:Ls; [|now apply Stop']. apply ascii_is in Q as ->. destruct (lex_string_inv _ r x rest (Nat.lt_succ_diag_r _) Ls) as (b & -> & T).
    rewrite sapp_length in L. cbn [String.length] in L. destruct (IH rest ltac:(lia)) as (u & rest' & -> & Lx & R). exists (String "034" (b ++ String "034" u)), rest'.
    split; [cbn [append]; now rewrite sapp_assoc|]. split; [now apply lx_string|exact R]. }
  destruct (is_number_char c) eqn:NC.
  { destruct (span_number (String c r)) as [a rest] eqn:SN. destruct (is_number a) eqn:IN; [|now apply Stop'].
    destruct (span_number_inv _ _ _ SN) as (E & NN). apply is_number_inv in IN. assert (a <> "") by (intros ->; destruct IN as (? & ? & ? & ? & Y & _ & [->|(? & ? & -> & _)] & _); destruct x; discriminate Y).
    assert (String.length rest < n). { apply (f_equal String.length) in E. rewrite sapp_length in E. cbn [String.length] in E. destruct a; [congruence|]. cbn [String.length] in E. lia. }
    destruct (IH rest H0) as (u & rest' & -> & Lx & R). exists (a ++ u), rest'. split; [now rewrite E, sapp_assoc|]. split; [|exact R]. apply lx_number; [exact IN|now apply no_number_prefix in NN|exact Lx]. }
  destruct (has_prefix (String c r) "null") eqn:P1; [apply (Word "null" TNull 3 P1 eq_refl); intros; now apply lx_null|].
  destruct (has_prefix (String c r) "true") eqn:P2; [apply (Word "true" (TBool true) 3 P2 eq_refl); intros; now apply lx_true|].
  destruct (has_prefix (String c r) "false") eqn:P3; [apply (Word "false" (TBool false) 4 P3 eq_refl); intros; now apply lx_false|].
  now apply Stop'.
Qed.

Lemma lex_text_inv s : exists u rest, s = u ++ rest /\ lexes u (lex_text s) /\ (rest = "" \/ forall l, ~ lexes rest l).
Proof. apply lex_inv. lia. Qed.
