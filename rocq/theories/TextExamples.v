(** Examples used to show that the hypotheses of the theorems about text can be satisfied. *)
From Coq Require Import Ascii String Bool Arith ZArith NArith Lia List.
From Verif Require Import GoStrings GoMap ReporterModel TextModel TextSpec TextProofs TextProofs2 TextProofs3 TextProofs4.
Import ListNotations.
Local Open Scope string_scope.

(** Ways to decide the propositions of the specification for literals. *)
Definition has_char (c : ascii) (s : string) : bool := existsb (Ascii.eqb c) (list_ascii_of_string s).
Definition all_space (s : string) : bool := forallb is_space (list_ascii_of_string s).

Lemma occurs_list c s : occurs c s <-> In c (list_ascii_of_string s).
Proof.
  split.
  - intros (a & b & ->). induction a; cbn; auto.
  - induction s as [|d s IH]; [intros []|]. intros [->|H]; [exists "", s; reflexivity|].
    destruct (IH H) as (a & b & ->). exists (String d a), b. reflexivity.
Qed.

Lemma has_char_spec c s : has_char c s = true <-> occurs c s.
Proof.
  rewrite occurs_list. unfold has_char. rewrite existsb_exists. split.
  - intros (x & I & E). apply Ascii.eqb_eq in E. now subst.
  - intros I. exists c. split; [exact I|apply Ascii.eqb_refl].
Qed.
Lemma lacks c s : has_char c s = false -> ~ occurs c s.
Proof. intros E O. apply has_char_spec in O. congruence. Qed.

Lemma all_space_spec s : all_space s = true <-> blank s.
Proof.
  unfold blank, all_space. rewrite forallb_forall. split; intros H c I; apply H; now apply occurs_list.
Qed.
Lemma not_blank s : all_space s = false -> ~ blank s.
Proof. intros E B. apply all_space_spec in B. congruence. Qed.

Definition short_b (s : string) : bool := N.ltb (N.of_nat (String.length s)) 65536.
Lemma short_spec s : short_b s = true -> short s.
Proof. apply N.ltb_lt. Qed.

Lemma lines_terminated l : forallb (fun s => negb (has_char lf s)) l = true -> text_lines (terminated l) l.
Proof.
  intros H. split; [|now left]. rewrite forallb_forall in H. apply Forall_forall. intros s I. apply lacks.
  apply H in I. now destruct (has_char lf s).
Qed.

Definition has_cr (s : string) : bool := has_suffix s (String cr "").
Lemma shorts l : forallb short_b l = true -> Forall short l.
Proof. intros H. rewrite forallb_forall in H. apply Forall_forall. intros s I. apply short_spec, H, I. Qed.

(** A function with several blank lines and a comment. *)
Definition ex_code_lines : list string :=
  ["func f() {"; ""; String tab "// Comment:"; ""; "  "; String tab "g()"; ""; "}"; ""; "func g() {"; "}"; ""].
Definition ex_code : string := terminated ex_code_lines.
Definition ex_code_result : list string := ["func f() {"; ""; String tab "// Comment:"; String tab "g()"; "}"; "func g() {"; "}"].

Lemma ex_code_text : text_lines ex_code ex_code_lines.
Proof. apply lines_terminated. reflexivity. Qed.
Lemma ex_code_short : Forall short ex_code_lines.
Proof. apply shorts. vm_compute. reflexivity. Qed.
Lemma same_without_cr l : forallb (fun s => negb (has_char cr s)) l = true -> Forall2 without_cr l l.
Proof.
  induction l as [|s l IH]; [constructor|]. cbn [forallb]. intros H. apply andb_prop in H. destruct H as [H1 H2].
  constructor; [|auto]. right. split; [reflexivity|]. intros a ->. destruct (has_char cr _) eqn:E; [discriminate|].
  apply (lacks _ _ E). exists a, "". reflexivity.
Qed.
Lemma ex_code_cr : Forall2 without_cr ex_code_lines ex_code_lines.
Proof. apply same_without_cr. reflexivity. Qed.
Lemma ex_code_removed : remove_extra_blank_lines ex_code = Some (terminated ex_code_result).
Proof. vm_compute. reflexivity. Qed.
Lemma ex_code_plain : plain_text ex_code.
Proof. apply lacks. reflexivity. Qed.

Definition ex_non_blank : list string -> list string := filter (fun s => negb (all_space s)).
Lemma non_blank_filter l : non_blank l (ex_non_blank l).
Proof.
  induction l as [|s l IH]; [constructor|]. unfold ex_non_blank. cbn [filter]. destruct (all_space s) eqn:E; cbn [negb].
  - apply nb_skip; [now apply all_space_spec|exact IH].
  - apply nb_keep; [now apply not_blank|exact IH].
Qed.

(** Templates like the ones of the generators. *)
Definition ex_templates : list string :=
  [newline ++ String tab "func f() {" ++ newline ++ String tab "}" ++ newline ++ String tab ""; newline ++ "const x = 1" ++ newline ++ String tab (String tab "")].
Lemma ex_templates_blank : Forall ends_blank ex_templates.
Proof.
  constructor; [|constructor; [|constructor]]; right.
  - exists (newline ++ String tab "func f() {" ++ newline ++ String tab "}"), (String tab ""). split; [reflexivity|now apply all_space_spec].
  - exists (newline ++ "const x = 1"), (String tab (String tab "")). split; [reflexivity|now apply all_space_spec].
Qed.
Definition ex_template_lines : list string :=
  [""; String tab "func f() {"; String tab "}"; String tab ""; ""; "const x = 1"; String tab (String tab "")].
Lemma ex_template_text : text_lines (emitted ex_templates) ex_template_lines.
Proof. change (emitted ex_templates) with (terminated ex_template_lines). now apply lines_terminated. Qed.

(** Documentation. *)
Definition ex_comments : comments := [(3, "// Another."); (5, "// First line."); (6, "//"); (7, "//   Indented line.")].
Lemma ex_block : comment_block ex_comments 8 ["// First line."; "//"; "//   Indented line."].
Proof.
  split; [cbn; lia|]. split.
  - intros i s. destruct i as [|[|[|i]]]; cbn; try (intros E; injection E as <-; reflexivity); [].
    destruct i; discriminate.
  - intros _. reflexivity.
Qed.
Definition ex_doc : string := "First line." ++ newline ++ newline ++ "  Indented line.".
Lemma ex_documented : documented ["// First line."; "//"; "//   Indented line."] ex_doc.
Proof.
  right. exists " ", ["First line."; ""; "  Indented line."], "First line.", [""; "  Indented line."], "F"%char, "irst line.".
  split; [now apply all_space_spec|]. split; [|now repeat split].
  constructor; [right; split; [reflexivity|discriminate]|]. constructor; [now left|].
  constructor; [right; split; [reflexivity|discriminate]|]. constructor.
Qed.

(** A comment that starts with an empty line. *)
Lemma ex_blank_first_line : exists c line, comment_block c line ["//"; "// Text."] /\ get_doc c line = DocPanics.
Proof.
  exists [(0, "//"); (1, "// Text.")], 2. split; [|reflexivity]. split; [cbn; lia|]. split; [|cbn; lia].
  intros i s. destruct i as [|[|i]]; cbn; try (intros E; injection E as <-; reflexivity); [].
  destruct i; discriminate.
Qed.

(** Words in two lines. *)
Lemma ex_joined_words : exists a b, is_line a /\ is_line b /\ ~ blank a /\ ~ blank b /\
  (forall a' c, a <> (a' ++ String c "")%string \/ is_space c = false) /\ doc_summary (a ++ newline ++ b ++ ".") = (a ++ b ++ ".")%string.
Proof.
  exists "two", "words". split; [now apply lacks|]. split; [now apply lacks|]. split; [now apply not_blank|]. split; [now apply not_blank|].
  split; [|reflexivity]. intros a' c. destruct (string_dec "two" (a' ++ String c "")) as [E|E]; [right|now left].
  destruct a' as [|x [|y [|z a']]]; cbn in E; try discriminate.
  - injection E as <- <- <-. reflexivity.
  - destruct a'; discriminate.
Qed.

Lemma ex_code_changed : remove_tabs ex_code <> ex_code.
Proof. apply String.eqb_neq. vm_compute. reflexivity. Qed.
