(** Proofs about the lexer: one step. *)
From Coq Require Import Ascii String Bool Arith ZArith NArith Lia List.
From Verif Require Import GoStrings GoStringsProofs TextModel TextSpec TextProofs ReaderModel SyntaxModel SyntaxSpec SyntaxProofs2.
Import ListNotations.
Local Open Scope string_scope.

(** Sets of characters. *)
Lemma chars_iff s c : chars s c <-> existsb (Ascii.eqb c) (list_ascii_of_string s) = true.
Proof.
  unfold chars. rewrite existsb_exists. split.
  - intros H. exists c. split; [assumption|apply Ascii.eqb_refl].
  - intros (x & I & E). apply Ascii.eqb_eq in E as ->. exact I.
Qed.
Lemma letter_iff c : letter c <-> is_name_start c = true.
Proof.
  unfold letter. rewrite chars_iff. replace (existsb _ _) with (is_name_start c); [reflexivity|].
  destruct c as [[|] [|] [|] [|] [|] [|] [|] [|]]; vm_compute; reflexivity.
Qed.
Lemma number_iff c : number c <-> is_number_char c = true.
Proof.
  unfold number. rewrite chars_iff. replace (existsb _ _) with (is_number_char c); [reflexivity|].
  destruct c as [[|] [|] [|] [|] [|] [|] [|] [|]]; vm_compute; reflexivity.
Qed.
Lemma blank_char_iff c : blank_char c <-> is_blank_char c = true.
Proof.
  unfold blank_char. split.
  - intros [->|[->|[->| ->]]]; reflexivity.
  - destruct c as [[|] [|] [|] [|] [|] [|] [|] [|]]; vm_compute; try discriminate; intros _; auto.
Qed.
Lemma name_char_iff c : letter c \/ number c <-> is_name_char c = true.
Proof. unfold is_name_char. rewrite orb_true_iff, letter_iff, number_iff. reflexivity. Qed.
Lemma mark_iff c : chars marks c <-> existsb (Ascii.eqb c) punctuation = true.
Proof. unfold chars. apply chars_iff. Qed.
Lemma comment_char_iff c : is_comment_char c = true <-> c <> cr /\ c <> lf.
Proof.
  split.
  - intros H. split; intros ->; discriminate.
  - destruct c as [[|] [|] [|] [|] [|] [|] [|] [|]]; vm_compute; try reflexivity; intros (A & B); first [now destruct A|now destruct B].
Qed.

(** Texts whose characters satisfy a condition. *)
Lemma every_cons p c s : every p (String c s) <-> p c /\ every p s.
Proof.
  unfold every. split.
  - intros H. split; [|intros d D]; apply H; apply occurs_cons; auto.
  - intros (A & B) d D. apply occurs_cons in D as [->|D]; auto.
Qed.
Lemma every_nil p : every p "". Proof. intros c H. now apply occurs_nil in H. Qed.
Lemma every_app p a b : every p (a ++ b) <-> every p a /\ every p b.
Proof.
  unfold every. setoid_rewrite occurs_app. firstorder.
Qed.
Lemma every_iff p q s : (forall c, p c <-> q c) -> every p s <-> every q s.
Proof. intros E. unfold every. split; intros H c O; apply E; auto. Qed.

Definition stops (p : ascii -> bool) (s : string) : Prop := match s with EmptyString => True | String c _ => p c = false end.
Lemma span_sound p s a b : span p s = (a, b) -> s = a ++ b /\ every (fun c => p c = true) a /\ stops p b.
Proof.
  revert a b. induction s as [|c s IH]; intros a b; cbn.
  - intros [= <- <-]. repeat split. apply every_nil.
  - destruct (p c) eqn:E.
    + destruct (span p s) as (x, y). destruct (IH x y eq_refl) as (-> & A & B). intros [= <- <-]. repeat split; [|assumption]. now apply every_cons.
    + intros [= <- <-]. repeat split; [apply every_nil|exact E].
Qed.
Lemma span_complete p a b : every (fun c => p c = true) a -> stops p b -> span p (a ++ b) = (a, b).
Proof.
  induction a as [|c a IH]; cbn.
  - intros _ B. destruct b as [|c b]; cbn in *; [reflexivity|]. now rewrite B.
  - intros A B. apply every_cons in A as (-> & A). now rewrite (IH A B).
Qed.
Lemma prefix_cases a b x y : a ++ b = x ++ y -> (exists z, a = x ++ z /\ y = z ++ b) \/ (exists z, x = a ++ z /\ b = z ++ y).
Proof.
  revert x. induction a as [|c a IH]; intros x E; cbn in E.
  - right. exists x. auto.
  - destruct x as [|d x]; cbn in E.
    + left. exists (String c a). auto.
    + injection E as <- E. destruct (IH x E) as [(z & -> & ->)|(z & -> & ->)]; [left|right]; exists z; auto.
Qed.
Lemma span_longest p a b x y : every (fun c => p c = true) x -> stops p b -> a ++ b = x ++ y -> String.length x <= String.length a.
Proof.
  intros X B E. apply prefix_cases in E as [(z & -> & _)|(z & -> & ->)]; rewrite sapp_length.
  - lia.
  - destruct z as [|c z]; cbn; [lia|]. cbn in B. apply every_app in X as (_ & X). apply every_cons in X as (X & _). congruence.
Qed.

(** Texts until a mark. *)
Lemma ends_once close a b x y : ends_at_first close a -> ends_at_first close x -> a ++ b = x ++ y -> a = x.
Proof.
  intros ((a' & ->) & A) ((x' & ->) & X) E. apply prefix_cases in E as [(z & E & _)|(z & E & _)].
  - rewrite sapp_assoc in E. apply A in E as Z. subst z. rewrite sapp_nil_r in E. exact E.
  - rewrite sapp_assoc in E. apply X in E as Z. subst z. rewrite sapp_nil_r in E. now rewrite E.
Qed.
Lemma until_char_ends q s a b : until_char q s = Some (a, b) -> s = a ++ b /\ ends_at_first (String q "") a.
Proof.
  intros H. apply until_char_sound in H as (x & -> & -> & O). split; [reflexivity|]. split; [now exists x|]. intros u v E.
  apply prefix_cases in E as [(z & -> & E)|(z & -> & E)].
  - destruct z as [|c z].
    + cbn in E. now injection E as <-.
    + exfalso. cbn in E. injection E as <- _. apply O. apply occurs_app. right. apply occurs_cons. now left.
  - apply (f_equal String.length) in E. rewrite sapp_length in E. cbn in E. destruct v; [reflexivity|]. cbn in E. lia.
Qed.
Lemma until_char_none q s : until_char q s = None -> ~ occurs q s.
Proof.
  induction s as [|c s IH]; cbn; [intros _; apply occurs_nil|]. destruct (Ascii.eqb_spec c q) as [->|N]; [discriminate|].
  destruct (until_char q s) as [(a, b)|]; [discriminate|]. intros _ O. apply occurs_cons in O as [->|O]; [now apply N|]. now apply IH.
Qed.
Lemma until_close_ends s a b : until_close s = Some (a, b) -> s = a ++ b /\ ends_at_first "*/" a.
Proof.
  revert a b. induction s as [|c s IH]; intros a b; cbn [until_close]; [discriminate|].
  destruct (Ascii.eqb c star_char && has_prefix s (String slash "")) eqn:T.
  - apply andb_true_iff in T as (C & P). apply Ascii.eqb_eq in C as ->. destruct s as [|d s]; [discriminate|]. cbn [has_prefix] in P. destruct (Ascii.eqb_spec slash d) as [<-|]; [|discriminate].
    intros [= <- <-]. split; [reflexivity|]. split; [now exists ""|]. intros x y E. apply (f_equal String.length) in E. rewrite !sapp_length in E. cbn in E.
    destruct y; [reflexivity|]. cbn in E. lia.
  - destruct (until_close s) as [(a', b')|]; [|discriminate]. intros [= <- <-]. destruct (IH a' b' eq_refl) as (-> & (z & ->) & L). split; [reflexivity|].
    split; [now exists (String c z)|]. intros x y E. destruct x as [|d x].
    + exfalso. cbn in E. injection E as -> E. rewrite E in T. cbn [append] in T. destruct (y ++ b'); discriminate T.
    + cbn in E. injection E as _ E. now apply (L x).
Qed.
Lemma until_close_none s : until_close s = None -> forall a b, s <> a ++ "*/" ++ b.
Proof.
  induction s as [|c s IH]; cbn [until_close]; intros H a b E; [now destruct a|].
  destruct (Ascii.eqb c star_char && has_prefix s (String slash "")) eqn:T; [discriminate|].
  destruct (until_close s) as [(a', b')|]; [discriminate|]. destruct a as [|d a].
  - cbn in E. injection E as -> ->. destruct b; discriminate T.
  - cbn in E. injection E as _ E. now apply (IH eq_refl a b).
Qed.
