(** Proofs about the types used in the generated Go code. *)
From Coq Require Import Ascii String Bool Arith Lia List.
From Verif Require Import GoStrings GoStringsProofs GoMap GoMapProofs NamesModel NamesSpec ConceptsModel ReporterModel ChecksModel GoNamesModel GoNamesSpec GoNamesProofs
  BufferModel BufferProofs2 DeclsModel OpenapiProofs5 GoTypesModel ObjectsSpec GoTypesSpec.
Import ListNotations.
Local Open Scope string_scope.

(** * Texts *)

Definition dotless (s : string) : Prop := forall c, In c (list_ascii_of_string s) -> c <> "."%char.

Lemma chars_app a b : list_ascii_of_string (a ++ b) = (list_ascii_of_string a ++ list_ascii_of_string b)%list.
Proof. induction a as [|c a IH]; [reflexivity|]. cbn. now rewrite IH. Qed.
Lemma dotless_app a b : dotless a -> dotless b -> dotless (a ++ b).
Proof. intros A B c I. rewrite chars_app in I. apply in_app_or in I as [I|I]; auto. Qed.
Lemma dotless_app_r a b : dotless (a ++ b) -> dotless b.
Proof. intros A c I. apply A. rewrite chars_app. apply in_or_app. now right. Qed.
Definition dotlessb (s : string) : bool := forallb (fun c => negb (Ascii.eqb c ".")) (list_ascii_of_string s).
Lemma dotlessb_sound s : dotlessb s = true -> dotless s.
Proof. intros H c I. unfold dotlessb in H. rewrite forallb_forall in H. specialize (H c I). intros ->. now rewrite Ascii.eqb_refl in H. Qed.

Lemma identifier_dotless n : identifier n -> dotless n.
Proof.
  intros (c & r & -> & U & R) x [<-|I].
  - intros ->. discriminate.
  - intros ->. apply R in I. discriminate.
Qed.
Lemma identifier_app n s : identifier n -> forallb ident_char (list_ascii_of_string s) = true -> identifier (n ++ s).
Proof.
  intros (c & r & -> & U & R) S. exists c, (r ++ s)%string. split; [reflexivity|]. split; [exact U|].
  intros x I. rewrite chars_app in I. apply in_app_or in I as [I|I]; [auto|]. rewrite forallb_forall in S. auto.
Qed.

Lemma remove_none p s : dotless s -> remove_all 0 (p ++ ".") s = s.
Proof.
  induction s as [|c s IH]; intros D; [reflexivity|]. cbn [remove_all]. destruct (has_prefix (String c s) (p ++ ".")) eqn:H.
  - apply has_prefix_spec in H as (r & H). exfalso. apply (D "."%char); [|reflexivity]. rewrite H, !chars_app. apply in_or_app. left. apply in_or_app. right. now left.
  - rewrite IH; [reflexivity|]. intros x I. apply D. now right.
Qed.

Lemma length_list s : length (list_ascii_of_string s) = String.length s.
Proof. induction s as [|c s IH]; [reflexivity|]. cbn. now rewrite IH. Qed.

(** The only dot of the text is the one after the selector. *)
Lemma dot_position a b a' b' : dotless a -> dotless a' -> dotless b -> a ++ "." ++ b = a' ++ "." ++ b' -> a = a'.
Proof.
  revert a'. induction a as [|c a IH]; intros a' A A' B E.
  - destruct a' as [|c' a']; [reflexivity|]. cbn in E. injection E as <- E. exfalso. apply (A' "."%char); [now left|reflexivity].
  - destruct a' as [|c' a'].
    + cbn in E. injection E as -> E. exfalso. apply (A "."%char); [now left|reflexivity].
    + cbn in E. injection E as -> E. f_equal. apply IH; [intros x I; apply A; now right|intros x I; apply A'; now right|exact B|exact E].
Qed.

Lemma remove_selector p s n : dotless p -> dotless s -> dotless n -> remove_all 0 (s ++ ".") (p ++ s ++ "." ++ n) = p ++ n.
Proof.
  intros P S N. induction p as [|c p IH].
  - change ("" ++ s ++ "." ++ n) with (s ++ "." ++ n). change ("" ++ n) with n.
    rewrite <- sapp_assoc. destruct (s ++ ".") as [|d q] eqn:Q; [apply sapp_eq_nil in Q as (_ & Q); discriminate|].
    change (String d q ++ n) with (String d (q ++ n)). cbn [remove_all].
    replace (has_prefix (String d (q ++ n)) (String d q)) with true by (symmetry; apply (has_prefix_app (String d q) n)).
    cbn [String.length]. rewrite Nat.sub_succ, Nat.sub_0_r, remove_skip. rewrite <- Q. now apply remove_none.
  - change (String c p ++ s ++ "." ++ n) with (String c (p ++ s ++ "." ++ n)). cbn [remove_all].
    destruct (has_prefix (String c (p ++ s ++ "." ++ n)) (s ++ ".")) eqn:H.
    + exfalso. apply has_prefix_spec in H as (r & H). rewrite sapp_assoc in H.
      change (String c (p ++ s ++ "." ++ n)) with (String c p ++ s ++ "." ++ n) in H. rewrite <- sapp_assoc in H.
      apply dot_position in H; [|now apply dotless_app|exact S|exact N].
      apply (f_equal String.length) in H. rewrite sapp_length in H. cbn [String.length] in H. lia.
    + change (String c p ++ n) with (String c (p ++ n)). f_equal. apply IH. intros x I. apply P. now right.
Qed.

Lemma rendered_eq pkg r : rendered pkg r = if String.eqb (rf_import r) pkg then remove_all 0 (rf_selector r ++ ".") (rf_text r) else rf_text r.
Proof. reflexivity. Qed.

(** A text denotes one type only. *)
Lemma identifier_head n c r : identifier n -> n = String c r -> is_upper c = true.
Proof. intros (d & q & -> & U & _) E. injection E as <- <-. exact U. Qed.

Lemma denotes_unique s g h : denotes s g -> denotes s h -> g = h.
Proof.
  intros D. revert h. induction D as [s B| | |n I|s g D IH|s g D IH|s g D IH]; intros h D'.
  - inversion D' as [s' B'| | |n' I'|s' g' D''|s' g' D''|s' g' D'']; subst; try reflexivity; exfalso.
    + repeat (destruct B as [B|B]; [discriminate B|]). exact B.
    + repeat (destruct B as [B|B]; [discriminate B|]). exact B.
    + repeat (destruct B as [B|B]; [subst; now pose proof (identifier_head _ _ _ I' eq_refl)|]). exact B.
    + repeat (destruct B as [B|B]; [discriminate B|]). exact B.
    + repeat (destruct B as [B|B]; [discriminate B|]). exact B.
    + repeat (destruct B as [B|B]; [discriminate B|]). exact B.
  - inversion D' as [s' B'| | |n' I'|s' g' D''|s' g' D''|s' g' D'']; subst; try reflexivity; exfalso.
    + repeat (destruct B' as [B|B']; [discriminate B|]). exact B'.
    + now pose proof (identifier_head _ _ _ I' eq_refl).
  - inversion D' as [s' B'| | |n' I'|s' g' D''|s' g' D''|s' g' D'']; subst; try reflexivity; exfalso.
    + repeat (destruct B' as [B|B']; [discriminate B|]). exact B'.
    + now pose proof (identifier_head _ _ _ I' eq_refl).
  - inversion D' as [s' B'| | |n' I'|s' g' D''|s' g' D''|s' g' D'']; subst; try reflexivity; exfalso.
    + repeat (destruct B' as [B|B']; [subst; now pose proof (identifier_head _ _ _ I eq_refl)|]). exact B'.
    + now pose proof (identifier_head _ _ _ I eq_refl).
    + now pose proof (identifier_head _ _ _ I eq_refl).
    + now pose proof (identifier_head _ _ _ I eq_refl).
    + now pose proof (identifier_head _ _ _ I eq_refl).
    + now pose proof (identifier_head _ _ _ I eq_refl).
  - inversion D' as [s' B'| | |n' I'|s' g' D''|s' g' D''|s' g' D'']; subst; try (exfalso; fail).
    + exfalso. repeat (destruct B' as [B|B']; [discriminate B|]). exact B'.
    + exfalso. now pose proof (identifier_head _ _ _ I' eq_refl).
    + f_equal. now apply IH.
  - inversion D' as [s' B'| | |n' I'|s' g' D''|s' g' D''|s' g' D'']; subst; try (exfalso; fail).
    + exfalso. repeat (destruct B' as [B|B']; [discriminate B|]). exact B'.
    + exfalso. now pose proof (identifier_head _ _ _ I' eq_refl).
    + f_equal. now apply IH.
  - inversion D' as [s' B'| | |n' I'|s' g' D''|s' g' D''|s' g' D'']; subst; try (exfalso; fail).
    + exfalso. repeat (destruct B' as [B|B']; [discriminate B|]). exact B'.
    + exfalso. now pose proof (identifier_head _ _ _ I' eq_refl).
    + f_equal. now apply IH.
Qed.
