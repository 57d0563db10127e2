(** Proofs about JSON texts: they have only one reading. *)
From Coq Require Import Ascii String Bool Arith ZArith NArith Lia List.
From Verif Require Import GoStrings GoStringsProofs ReporterModel ObjectsModel ObjectsSpec TextModel JsonModel JsonSpec JsonProofs JsonTextModel JsonTextSpec JsonTextProofs.
Import ListNotations.
Local Open Scope string_scope.

Lemma hex_value_unique c n m : hex_value c n -> hex_value c m -> n = m.
Proof. unfold hex_value. cbv zeta. lia. Qed.
Lemma hex4_unique a b c d n m : hex4 a b c d n -> hex4 a b c d m -> n = m.
Proof.
  intros (i & j & k & l & A & B & C & D & ->) (i' & j' & k' & l' & A' & B' & C' & D' & ->).
  rewrite (hex_value_unique _ _ _ A A'), (hex_value_unique _ _ _ B B'), (hex_value_unique _ _ _ C C'), (hex_value_unique _ _ _ D D'). reflexivity.
Qed.
Lemma utf8_unique n s r : utf8 n s -> utf8 n r -> s = r.
Proof. unfold utf8. intros [[H ->]|[[H ->]|[[H ->]|[H ->]]]] [[K ->]|[[K ->]|[[K ->]|[K ->]]]]; try reflexivity; lia. Qed.
Lemma escapes_unique e c d : escapes e c -> escapes e d -> c = d.
Proof. unfold escapes. cbn [In]. intuition congruence. Qed.
Lemma escapes_u c : ~ escapes (N_of_ascii "u") c.
Proof. unfold escapes. cbn. intuition congruence. Qed.
Lemma ascii_N_inj c d : N_of_ascii c = N_of_ascii d -> c = d.
Proof. intros H. rewrite <- (ascii_N_embedding c), H. apply ascii_N_embedding. Qed.

Lemma string_text_unique b s : string_text b s -> forall b' s' r r', string_text b' s' -> (b ++ String "034" r)%string = (b' ++ String "034" r')%string -> s = s' /\ r = r'.
Proof.
  induction 1 as [|c b s C1 C2 C3 H IH|e c b s Q H IH|a1 a2 a3 a4 n u b s X S U H IH|a1 a2 a3 a4 b1 b2 b3 b4 n m u b s X Y R1 R2 U H IH]; intros b' s' r r' H' E.
  - destruct H' as [|c b' s' C1 C2 C3 H'|e c b' s' Q H'|a1 a2 a3 a4 n u b' s' X S U H'|a1 a2 a3 a4 b1 b2 b3 b4 n m u b' s' X Y R1 R2 U H']; cbn [append] in E; try discriminate.
    + injection E as ->. auto.
    + injection E as <- _. now cbn in C2.
  - destruct H' as [|c' b' s' C1' C2' C3' H'|e' c' b' s' Q' H'|a1' a2' a3' a4' n' u' b' s' X' S' U' H'|a1' a2' a3' a4' b1' b2' b3' b4' n' m' u' b' s' X' Y' R1' R2' U' H']; cbn [append] in E; injection E.
    + intros _ ->. now cbn in C2.
    + intros E' <-. destruct (IH _ _ _ _ H' E') as [-> ->]. auto.
    + intros _ ->. now cbn in C3.
    + intros _ ->. now cbn in C3.
    + intros _ ->. now cbn in C3.
  - destruct H' as [|c' b' s' C1' C2' C3' H'|e' c' b' s' Q' H'|a1' a2' a3' a4' n' u' b' s' X' S' U' H'|a1' a2' a3' a4' b1' b2' b3' b4' n' m' u' b' s' X' Y' R1' R2' U' H']; cbn [append] in E; try discriminate; injection E.
    + intros _ <-. now cbn in C3'.
    + intros E' <-. destruct (IH _ _ _ _ H' E') as [-> ->]. rewrite (ascii_N_inj _ _ (escapes_unique _ _ _ Q Q')). auto.
    + intros _ ->. now apply escapes_u in Q.
    + intros _ ->. now apply escapes_u in Q.
  - destruct H' as [|c' b' s' C1' C2' C3' H'|e' c' b' s' Q' H'|a1' a2' a3' a4' n' u' b' s' X' S' U' H'|a1' a2' a3' a4' b1' b2' b3' b4' n' m' u' b' s' X' Y' R1' R2' U' H']; cbn [append] in E; try discriminate; injection E.
    + intros _ <-. now cbn in C3'.
    + intros _ <-. now apply escapes_u in Q'.
    + intros E' <- <- <- <-. rewrite (hex4_unique _ _ _ _ _ _ X' X) in *. rewrite (utf8_unique _ _ _ U' U). destruct (IH _ _ _ _ H' E') as [-> ->]. auto.
    + intros E' <- <- <- <-. rewrite (hex4_unique _ _ _ _ _ _ X' X) in *. exfalso. apply S. unfold surrogate. lia.
  - destruct H' as [|c' b' s' C1' C2' C3' H'|e' c' b' s' Q' H'|a1' a2' a3' a4' n' u' b' s' X' S' U' H'|a1' a2' a3' a4' b1' b2' b3' b4' n' m' u' b' s' X' Y' R1' R2' U' H']; cbn [append] in E; try discriminate; injection E.
    + intros _ <-. now cbn in C3'.
    + intros _ <-. now apply escapes_u in Q'.
    + intros E' <- <- <- <-. rewrite (hex4_unique _ _ _ _ _ _ X' X) in *. exfalso. apply S'. unfold surrogate. lia.
    + intros E' <- <- <- <- <- <- <- <-. rewrite (hex4_unique _ _ _ _ _ _ X' X), (hex4_unique _ _ _ _ _ _ Y' Y) in *. rewrite (utf8_unique _ _ _ U' U).
      destruct (IH _ _ _ _ H' E') as [-> ->]. auto.
Qed.

(** * Numbers *)

Definition number_chars (s : string) : Prop := forall a c b, s = (a ++ String c b)%string -> number_char c.

Lemma number_chars_nil : number_chars "".
Proof. intros a c b E. now destruct a. Qed.
Lemma number_chars_cons c s : number_char c -> number_chars s -> number_chars (String c s).
Proof. intros C S a x b E. destruct a as [|y a]; injection E as <- E; [exact C|]. now apply (S a x b). Qed.
Lemma number_chars_app s r : number_chars s -> number_chars r -> number_chars (s ++ r).
Proof.
  intros S R. induction s as [|c s IH]; [exact R|]. cbn [append]. apply number_chars_cons; [now apply (S "" c s)|].
  apply IH. intros a x b E. apply (S (String c a) x b). cbn. now rewrite E.
Qed.
Lemma digits_chars s : digits s -> number_chars s.
Proof.
  induction s as [|c s IH]; [intros _; apply number_chars_nil|]. intros [C S]. apply number_chars_cons; [|now apply IH].
  left. unfold nat_of_ascii in C. lia.
Qed.
Lemma number_chars_single c : number_char c -> number_chars (String c "").
Proof. intros C. apply number_chars_cons; [exact C|apply number_chars_nil]. Qed.

Lemma json_number_chars s : json_number s -> number_chars s /\ exists c r, s = String c r.
Proof.
  intros (sign & int & frac & exp & -> & S & I & F & E). split.
  - apply number_chars_app; [|apply number_chars_app; [|apply number_chars_app]].
    + destruct S as [->| ->]; [apply number_chars_nil|apply number_chars_single]. right. cbn. tauto.
    + destruct I as [->|(c & r & -> & _ & D)]; [apply number_chars_single; left; cbn; lia|now apply digits_chars].
    + destruct F as [->|(d & -> & _ & D)]; [apply number_chars_nil|]. apply number_chars_cons; [right; cbn; tauto|now apply digits_chars].
    + destruct E as [->|(e & d & -> & C & x & d' & -> & X & _ & D)]; [apply number_chars_nil|].
      apply number_chars_cons; [destruct C as [->| ->]; right; cbn; tauto|]. apply number_chars_app; [|now apply digits_chars].
      cbn in X. destruct X as [<-|[<-|[<-|[]]]]; [apply number_chars_nil|apply number_chars_single|apply number_chars_single]; right; cbn; tauto.
  - destruct S as [->| ->]; [|cbn; eauto]. destruct I as [->|(c & r & -> & _ & _)]; cbn; eauto.
Qed.

Lemma number_unique n m : number_chars n -> number_chars m -> forall s r, no_number s -> no_number r -> (n ++ s)%string = (m ++ r)%string -> n = m /\ s = r.
Proof.
  revert m. induction n as [|c n IH]; intros [|d m] N M s r S R E; cbn [append] in E.
  - auto.
  - exfalso. apply (S d (m ++ r)%string E). now apply (M "" d m).
  - exfalso. apply (R c (n ++ s)%string (eq_sym E)). now apply (N "" c n).
  - injection E as <- E. destruct (IH m) with (s := s) (r := r) as [-> ->]; auto.
    + intros a x b Q. apply (N (String c a) x b). cbn. now rewrite Q.
    + intros a x b Q. apply (M (String c a) x b). cbn. now rewrite Q.
Qed.

(** * Tokens *)

Lemma space_cases c : json_space c -> c = "009"%char \/ c = "010"%char \/ c = "013"%char \/ c = " "%char.
Proof. unfold json_space. cbn [In]. intros [H|[H|[H|[H|[]]]]]; [left|right; left|do 2 right; left|do 3 right]; apply ascii_N_inj; now rewrite <- H. Qed.

Lemma number_start n s c r : json_number n -> (n ++ s)%string = String c r -> number_char c.
Proof. intros N E. destruct (json_number_chars n N) as [C (d & x & ->)]. cbn in E. injection E as <- _. now apply (C "" d x). Qed.

Ltac not_number := match goal with N : json_number ?n, E : (?n ++ _)%string = String _ _ |- _ => apply number_start in E; [|exact N]; unfold number_char in E; cbn in E; intuition (discriminate || lia) end.

Lemma lexes_unique s l : lexes s l -> forall l', lexes s l' -> l = l'.
Proof.
  intros H. induction H as [|c s l C H IH|s l H IH|s l H IH|s l H IH|s l H IH|s l H IH|s l H IH|s l H IH|s l H IH|s l H IH|n s l N S H IH|b c s l T H IH]; intros l' H'.
  - inversion H' as [| | | | | | | | | | |n s l N S K E|]; subst; [reflexivity|]. destruct (json_number_chars n N) as [_ (c & r & ->)]. discriminate.
  - inversion H'; subst; auto; try (apply space_cases in C; intuition discriminate).
    exfalso. apply space_cases in C. match goal with N : json_number ?n, E : (?n ++ _)%string = String _ _ |- _ => apply number_start in E; [|exact N]; unfold number_char in E end.
    destruct C as [->|[->|[->| ->]]]; cbn in *; intuition (discriminate || lia).
  - inversion H'; subst; first [f_equal; solve [auto] | exfalso; solve [match goal with C : json_space _ |- _ => apply space_cases in C; intuition discriminate end] | exfalso; not_number].
  - inversion H'; subst; first [f_equal; solve [auto] | exfalso; solve [match goal with C : json_space _ |- _ => apply space_cases in C; intuition discriminate end] | exfalso; not_number].
  - inversion H'; subst; first [f_equal; solve [auto] | exfalso; solve [match goal with C : json_space _ |- _ => apply space_cases in C; intuition discriminate end] | exfalso; not_number].
  - inversion H'; subst; first [f_equal; solve [auto] | exfalso; solve [match goal with C : json_space _ |- _ => apply space_cases in C; intuition discriminate end] | exfalso; not_number].
  - inversion H'; subst; first [f_equal; solve [auto] | exfalso; solve [match goal with C : json_space _ |- _ => apply space_cases in C; intuition discriminate end] | exfalso; not_number].
  - inversion H'; subst; first [f_equal; solve [auto] | exfalso; solve [match goal with C : json_space _ |- _ => apply space_cases in C; intuition discriminate end] | exfalso; not_number].
  - inversion H'; subst; first [f_equal; solve [auto] | exfalso; solve [match goal with C : json_space _ |- _ => apply space_cases in C; intuition discriminate end] | exfalso; not_number].
  - inversion H'; subst; first [f_equal; solve [auto] | exfalso; solve [match goal with C : json_space _ |- _ => apply space_cases in C; intuition discriminate end] | exfalso; not_number].
  - inversion H'; subst; first [f_equal; solve [auto] | exfalso; solve [match goal with C : json_space _ |- _ => apply space_cases in C; intuition discriminate end] | exfalso; not_number].
  - assert (X : forall c r, (n ++ s)%string = String c r -> number_char c) by (intros c r; now apply number_start).
    inversion H' as [E|c s0 l0 C K E|s0 l0 K E|s0 l0 K E|s0 l0 K E|s0 l0 K E|s0 l0 K E|s0 l0 K E|s0 l0 K E|s0 l0 K E|s0 l0 K E|n0 s0 l0 N0 S0 K E|b c s0 l0 T K E]; subst;
      try (symmetry in E; apply X in E; unfold number_char in E; cbn in E; exfalso; intuition (discriminate || lia)).
    + destruct (json_number_chars n N) as [_ (c & r & ->)]. discriminate.
    + symmetry in E. apply X in E. apply space_cases in C. exfalso. unfold number_char in E. destruct C as [->|[->|[->| ->]]]; cbn in *; intuition (discriminate || lia).
    + apply number_unique in E; auto; [|now apply json_number_chars|now apply json_number_chars]. destruct E as [-> ->]. f_equal. auto.
  - inversion H' as [E|c0 s0 l0 C K E|s0 l0 K E|s0 l0 K E|s0 l0 K E|s0 l0 K E|s0 l0 K E|s0 l0 K E|s0 l0 K E|s0 l0 K E|s0 l0 K E|n0 s0 l0 N0 S0 K E|b0 c0 s0 l0 T0 K E]; subst.
    + apply space_cases in C. intuition discriminate.
    + exfalso. not_number.
    + destruct (string_text_unique _ _ T _ _ _ _ T0 (eq_sym E)) as [-> ->]. f_equal. auto.
Qed.
