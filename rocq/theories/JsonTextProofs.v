(** Proofs about JSON texts. *)
From Coq Require Import Ascii String Bool Arith ZArith NArith Lia List.
From Verif Require Import GoStrings GoStringsProofs ReporterModel ObjectsModel ObjectsSpec TextModel JsonModel JsonSpec JsonProofs JsonTextModel JsonTextSpec.
Import ListNotations.
Local Open Scope string_scope.

(** * Strings *)

Lemma escape_char_spec : forall c b s, string_text b s -> string_text (escape_char c ++ b) (String c s).
Proof.
  intros c b s H. unfold escape_char.
  destruct (Ascii.eqb_spec c double_quote) as [->|Q]; cbn [orb]; [apply st_escape; [left; reflexivity|exact H]|].
  destruct (Ascii.eqb_spec c backslash) as [->|B]; [apply st_escape; [right; left; reflexivity|exact H]|].
  destruct (Ascii.eqb_spec c lf) as [->|L]; [apply st_escape; [do 5 right; left; reflexivity|exact H]|].
  destruct (Ascii.eqb_spec c cr) as [->|R]; [apply st_escape; [do 6 right; left; reflexivity|exact H]|].
  destruct (Ascii.eqb_spec c tab) as [->|T]; [apply st_escape; [do 7 right; left; reflexivity|exact H]|].
  destruct (N.ltb_spec (N_of_ascii c) 32) as [U|U].
  - cbn [append]. change (String c s) with (String c "" ++ s). apply st_unicode with (n := N_of_ascii c).
    + exists 0%N, 0%N, (N_of_ascii c / 16)%N, (N_of_ascii c mod 16)%N.
      assert (E1 : (N_of_ascii c / 16 < 2)%N) by (apply N.div_lt_upper_bound; lia).
      assert (E2 : (N_of_ascii c mod 16 < 16)%N) by (apply N.mod_lt; lia).
      assert (V : forall n, (n < 16)%N -> hex_value (hex_digit n) n).
      { intros n K. assert (C : In n (map N.of_nat (seq 0 16))).
        { apply in_map_iff. exists (N.to_nat n). rewrite N2Nat.id. split; [reflexivity|]. apply in_seq. lia. }
        cbn in C. unfold hex_value. repeat (destruct C as [<-|C]; [vm_compute; intuition (discriminate || lia)|]). destruct C. }
      split; [left; vm_compute; intuition discriminate|]. split; [left; vm_compute; intuition discriminate|].
      split; [apply V; lia|]. split; [apply V; lia|]. pose proof (N.div_mod (N_of_ascii c) 16). lia.
    + unfold surrogate. lia.
    + left. split; [lia|]. now rewrite ascii_N_embedding.
    + exact H.
  - cbn [append]. apply st_char; [exact U| | |exact H].
    + intros E. apply Q. rewrite <- (ascii_N_embedding c), E. reflexivity.
    + intros E. apply B. rewrite <- (ascii_N_embedding c), E. reflexivity.
Qed.

Lemma escape_spec s : string_text (escape s) s.
Proof. induction s as [|c s IH]; [constructor|]. now apply escape_char_spec. Qed.

(** * Tokens *)

Lemma spaces_lexes n s l : lexes s l -> lexes (spaces n ++ s) l.
Proof. intros H. induction n as [|n IH]; [exact H|]. cbn [spaces append]. apply lx_space; [|exact IH]. cbn. tauto. Qed.
Lemma indent_lexes a b s l : lexes s l -> lexes (indent a b ++ s) l.
Proof.
  intros H. unfold indent. destruct (Nat.eqb a 0); [exact H|]. rewrite sapp_assoc. apply lx_space; [|now apply spaces_lexes]. cbn. tauto.
Qed.

(** Numbers are followed by punctuation. *)
Definition punctuation (t : token) : Prop := match t with TRBrace | TRBracket | TComma | TColon => True | _ => False end.
Fixpoint lexable (l : list token) : Prop :=
  match l with
  | [] => True
  | t :: r =>
      match t with
      | TNum s => json_number s /\ match r with [] => True | t' :: _ => punctuation t' end
      | _ => True
      end /\ lexable r
  end.

Lemma punctuation_text i t r : punctuation t -> no_number (write_tokens i (t :: r)).
Proof.
  assert (X : forall a c s, (forall x, c = x -> ~ number_char x) -> no_number (indent i a ++ String c "" ++ s)).
  { intros a c s H. unfold indent. destruct (Nat.eqb i 0); intros x y E.
    - cbn in E. injection E as <- _. now apply H.
    - cbn in E. injection E as <- _. unfold number_char. cbn. intuition (discriminate || lia). }
  cbn [write_tokens]. destruct t; intros H; try easy; cbn [write_token]; rewrite ?sapp_assoc.
  - apply X. intros x <-. unfold number_char. cbn. intuition (discriminate || lia).
  - apply X. intros x <-. unfold number_char. cbn. intuition (discriminate || lia).
  - destruct (Nat.ltb 0 i); intros x y E; cbn in E; injection E as <- _; unfold number_char; cbn; intuition (discriminate || lia).
  - intros x y E. cbn in E. injection E as <- _. unfold number_char. cbn. intuition (discriminate || lia).
Qed.

Lemma lexable_lexes l : forall i, lexable l -> lexes (write_tokens i l) l.
Proof.
  induction l as [|t l IH]; intros i H; [constructor|]. destruct H as [H L]. cbn [write_tokens].
  destruct t; cbn [write_token]; rewrite ?sapp_assoc.
  - cbn [append]. apply lx_lbrace, indent_lexes, IH, L.
  - apply indent_lexes, lx_rbrace, IH, L.
  - cbn [append]. apply lx_lbracket, indent_lexes, IH, L.
  - apply indent_lexes, lx_rbracket, IH, L.
  - destruct (Nat.ltb 0 i); cbn [append]; apply lx_colon; [apply lx_space; [cbn; tauto|]|]; apply IH, L.
  - cbn [append]. apply lx_comma, indent_lexes, IH, L.
  - apply lx_null, IH, L.
  - destruct b; [apply lx_true|apply lx_false]; apply IH, L.
  - destruct H as [N P]. apply lx_number; [exact N| |apply IH, L]. destruct l as [|t r]; [intros c x E; discriminate|now apply punctuation_text].
  - unfold quote. cbn [append]. rewrite sapp_assoc. apply lx_string; [apply escape_spec|apply IH, L].
Qed.

Definition ends_ok (r : list token) : Prop := match r with [] => True | t :: _ => punctuation t end.

Lemma lexable_nonum t r : (forall s, t <> TNum s) -> lexable r -> lexable (t :: r).
Proof. intros N H. split; [|exact H]. destruct t; try exact I. now destruct (N s). Qed.

Lemma lexable_separated (l : list (list token)) r : Forall (fun x => forall r, ends_ok r -> lexable r -> lexable (x ++ r)%list) l ->
  ends_ok r -> lexable r -> lexable (separated l ++ r)%list.
Proof.
  intros F E R. induction F as [|x l H F IH]; [exact R|]. destruct l as [|y l]; [now apply H|].
  change (separated (x :: y :: l)) with (x ++ TComma :: separated (y :: l))%list. rewrite <- app_assoc. apply H; [exact I|].
  cbn [app]. apply lexable_nonum; [discriminate|exact IH].
Qed.

Lemma lexable_tokens j : well_formed j -> forall r, ends_ok r -> lexable r -> lexable (tokens j ++ r)%list.
Proof.
  induction j as [| | | |l IH|l IH] using json_ind2; intros W r E R; cbn [tokens app].
  - now apply lexable_nonum.
  - now apply lexable_nonum.
  - split; [|exact R]. split; [exact W|exact E].
  - now apply lexable_nonum.
  - apply lexable_nonum; [discriminate|]. rewrite <- app_assoc. apply lexable_separated; [|exact I|now apply lexable_nonum].
    cbn [well_formed] in W. induction IH as [|x l H F IHF]; [constructor|]. destruct W as [W1 W2]. constructor; auto.
  - apply lexable_nonum; [discriminate|]. rewrite <- app_assoc. apply lexable_separated; [|exact I|now apply lexable_nonum].
    cbn [well_formed] in W. induction IH as [|[k x] l H F IHF]; [constructor|]. destruct W as [W1 W2]. constructor; [|auto].
    intros r' E' R'. cbn [app]. apply lexable_nonum; [discriminate|]. apply lexable_nonum; [discriminate|]. now apply H.
Qed.

Lemma document_text j i : well_formed j -> json_document (write_tokens i (tokens j)) j.
Proof.
  intros W. split; [exact W|]. apply lexable_lexes. rewrite <- (app_nil_r (tokens j)). now apply lexable_tokens; cbn.
Qed.
