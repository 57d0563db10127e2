(** Lemmas about the model of the Go string functions. *)
From Coq Require Import Ascii String Bool Arith ZArith NArith Lia List.
From Verif Require Import GoStrings.
Import ListNotations.
Local Open Scope string_scope.

(** * Exhaustive reasoning about bytes *)

Definition all_ascii : list ascii := map ascii_of_nat (seq 0 256).

Lemma all_ascii_complete c : In c all_ascii.
Proof.
  unfold all_ascii. apply in_map_iff. exists (nat_of_ascii c). split.
  - apply ascii_nat_embedding.
  - apply in_seq. pose proof (nat_ascii_bounded c). lia.
Qed.

Lemma ascii_forall (p : ascii -> bool) :
  forallb p all_ascii = true -> forall c, p c = true.
Proof.
  intros H c. rewrite forallb_forall in H. apply H. apply all_ascii_complete.
Qed.

Ltac by_bytes c :=
  revert c;
  match goal with
  | |- forall c : ascii, @?P c = true => apply (ascii_forall P); vm_compute; reflexivity
  end.

Lemma implb_elim (a b : bool) : implb a b = true -> a = true -> b = true.
Proof. destruct a, b; simpl; congruence. Qed.

Lemma upper_not_lower c : is_upper c = true -> is_lower c = false.
Proof.
  intros H. apply negb_true_iff. apply (implb_elim (is_upper c)); [|exact H].
  clear H. by_bytes c.
Qed.

Lemma digit_not_lower c : is_digit c = true -> is_lower c = false.
Proof.
  intros H. apply negb_true_iff. apply (implb_elim (is_digit c)); [|exact H].
  clear H. by_bytes c.
Qed.

Lemma digit_not_upper c : is_digit c = true -> is_upper c = false.
Proof.
  intros H. apply negb_true_iff. apply (implb_elim (is_digit c)); [|exact H].
  clear H. by_bytes c.
Qed.

Lemma to_lower_upper c : is_lower c = true -> to_lower (to_upper c) = c.
Proof.
  intros H. apply Ascii.eqb_eq. apply (implb_elim (is_lower c)); [|exact H].
  clear H. by_bytes c.
Qed.

Lemma to_upper_lower c : is_upper c = true -> to_upper (to_lower c) = c.
Proof.
  intros H. apply Ascii.eqb_eq. apply (implb_elim (is_upper c)); [|exact H].
  clear H. by_bytes c.
Qed.

Lemma to_upper_is_upper c : is_lower c = true -> is_upper (to_upper c) = true.
Proof.
  intros H. apply (implb_elim (is_lower c)); [|exact H]. clear H. by_bytes c.
Qed.

Lemma to_lower_is_lower c : is_upper c = true -> is_lower (to_lower c) = true.
Proof.
  intros H. apply (implb_elim (is_upper c)); [|exact H]. clear H. by_bytes c.
Qed.

Lemma to_lower_idem c : to_lower (to_lower c) = to_lower c.
Proof. apply Ascii.eqb_eq. by_bytes c. Qed.

Lemma to_lower_id c : is_upper c = false -> to_lower c = c.
Proof. unfold to_lower. intros ->. reflexivity. Qed.

Lemma to_upper_id c : is_lower c = false -> to_upper c = c.
Proof. unfold to_upper. intros ->. reflexivity. Qed.

Lemma to_lower_to_upper c : to_lower (to_upper c) = to_lower c.
Proof. apply Ascii.eqb_eq. by_bytes c. Qed.

Lemma not_sep_alnum c :
  is_lower c || is_upper c || is_digit c = true -> is_title_separator c = false.
Proof. unfold is_title_separator. intros ->. reflexivity. Qed.

(** * Concatenation *)

Lemma sapp_nil_r s : s ++ "" = s.
Proof. induction s as [|c s IH]; simpl; [reflexivity | now rewrite IH]. Qed.

Lemma sapp_assoc a b c : (a ++ b) ++ c = a ++ (b ++ c).
Proof. induction a as [|x a IH]; simpl; [reflexivity | now rewrite IH]. Qed.

Lemma sapp_length a b : String.length (a ++ b) = String.length a + String.length b.
Proof. induction a as [|x a IH]; simpl; [reflexivity | now rewrite IH]. Qed.

Lemma sapp_inv_head a b c : a ++ b = a ++ c -> b = c.
Proof. induction a as [|x a IH]; simpl; intros H; [exact H | injection H; auto]. Qed.

Lemma sapp_eq_nil a b : a ++ b = "" -> a = "" /\ b = "".
Proof. destruct a; simpl; [auto | discriminate]. Qed.

Lemma slength_nil s : String.length s = 0 <-> s = "".
Proof. destruct s; simpl; split; congruence. Qed.

Lemma sapp_inv_length a a' b b' :
  String.length a = String.length a' -> a ++ b = a' ++ b' -> a = a' /\ b = b'.
Proof.
  revert a'; induction a as [|x a IH]; intros [|y a'] Hl H; simpl in *; try discriminate.
  - auto.
  - injection H as -> H. destruct (IH a') as [-> ->]; auto; lia.
Qed.

Lemma snoc_cases s : s = "" \/ exists r c, s = r ++ String c "".
Proof.
  induction s as [|c s IH]; [now left|]. right.
  destruct IH as [->|(r & d & ->)].
  - exists "", c. reflexivity.
  - exists (String c r), d. reflexivity.
Qed.

(** * Maps and predicates *)

Lemma str_all_app p a b : str_all p (a ++ b) = str_all p a && str_all p b.
Proof. induction a as [|c a IH]; simpl; [reflexivity|]. now rewrite IH, andb_assoc. Qed.

Lemma str_all_impl (p q : ascii -> bool) s :
  (forall c, p c = true -> q c = true) -> str_all p s = true -> str_all q s = true.
Proof.
  intros H. induction s as [|c s IH]; simpl; [auto|].
  rewrite !andb_true_iff. intros [Hc Hs]. auto.
Qed.

Lemma str_map_app f a b : str_map f (a ++ b) = str_map f a ++ str_map f b.
Proof. induction a as [|c a IH]; simpl; [reflexivity | now rewrite IH]. Qed.

Lemma str_lower_app a b : str_lower (a ++ b) = str_lower a ++ str_lower b.
Proof. apply str_map_app. Qed.

Lemma str_upper_app a b : str_upper (a ++ b) = str_upper a ++ str_upper b.
Proof. apply str_map_app. Qed.

Lemma str_map_length f s : String.length (str_map f s) = String.length s.
Proof. induction s as [|c s IH]; simpl; [reflexivity | now rewrite IH]. Qed.

Lemma str_map_id f s : (forall c, f c = c \/ str_all (fun d => negb (Ascii.eqb c d)) s = true) -> 
  str_map f s = s.
Proof.
  induction s as [|c s IH]; simpl; intros H; [reflexivity|].
  f_equal.
  - destruct (H c) as [E|E]; [exact E|]. rewrite Ascii.eqb_refl in E. discriminate.
  - apply IH. intros d. destruct (H d) as [E|E]; [now left|right].
    apply andb_true_iff in E. tauto.
Qed.

Lemma str_lower_idem s : str_lower (str_lower s) = str_lower s.
Proof.
  unfold str_lower. induction s as [|c s IH]; cbn [str_map]; [reflexivity|].
  rewrite to_lower_idem. now rewrite IH.
Qed.

Lemma lower_id s : str_all is_lower s = true -> str_lower s = s.
Proof.
  unfold str_lower. induction s as [|c s IH]; cbn [str_map str_all]; [reflexivity|].
  rewrite andb_true_iff. intros [Hc Hs]. rewrite (IH Hs).
  f_equal. apply to_lower_id.
  destruct (is_upper c) eqn:E; [|reflexivity].
  apply upper_not_lower in E. congruence.
Qed.

(** * Joining and splitting *)

Lemma str_join_cons sep s l : l <> [] -> str_join sep (s :: l) = s ++ sep ++ str_join sep l.
Proof. destruct l; [congruence|reflexivity]. Qed.

Lemma str_join_empty_sep l : str_join "" l = fold_right append "" l.
Proof.
  induction l as [|s l IH]; [reflexivity|].
  destruct l as [|t l]; simpl; [now rewrite sapp_nil_r|].
  simpl in IH. now rewrite IH.
Qed.

Lemma fold_append_app l m :
  fold_right append "" (l ++ m)%list = fold_right append "" l ++ fold_right append "" m.
Proof. induction l as [|s l IH]; simpl; [reflexivity|]. now rewrite IH, sapp_assoc. Qed.

Lemma split_loop_not_nil sep cur s : split_loop sep cur s <> [].
Proof.
  revert cur; induction s as [|c s IH]; intros cur; simpl; [discriminate|].
  destruct (Ascii.eqb c sep); [discriminate | apply IH].
Qed.

Lemma split_loop_join sep cur s :
  str_join (String sep "") (split_loop sep cur s) = cur ++ s.
Proof.
  revert cur; induction s as [|c s IH]; intros cur; simpl.
  - now rewrite sapp_nil_r.
  - destruct (Ascii.eqb c sep) eqn:E.
    + apply Ascii.eqb_eq in E. subst c.
      rewrite str_join_cons by apply split_loop_not_nil.
      rewrite IH. reflexivity.
    + rewrite IH, sapp_assoc. reflexivity.
Qed.

Lemma split_join sep s : str_join (String sep "") (str_split sep s) = s.
Proof. unfold str_split. now rewrite split_loop_join. Qed.

Definition no_char (sep : ascii) (s : string) : bool :=
  str_all (fun c => negb (Ascii.eqb c sep)) s.

Lemma split_loop_app_clean sep cur a s :
  no_char sep a = true -> split_loop sep cur (a ++ s) = split_loop sep (cur ++ a) s.
Proof.
  unfold no_char. revert cur; induction a as [|c a IH]; intros cur; simpl.
  - intros _. now rewrite sapp_nil_r.
  - rewrite andb_true_iff, negb_true_iff. intros [-> Ha].
    rewrite IH by exact Ha. now rewrite sapp_assoc.
Qed.

Lemma join_split_cur sep cur l :
  Forall (fun s => no_char sep s = true) l -> l <> [] ->
  split_loop sep cur (str_join (String sep "") l) = (cur ++ hd "" l) :: tl l.
Proof.
  revert cur; induction l as [|s l IH]; intros cur HF Hn; [congruence|].
  inversion HF as [|x y Hs Hl]; subst. simpl hd; simpl tl.
  destruct l as [|t l].
  - simpl. rewrite <- (sapp_nil_r s) at 1. rewrite split_loop_app_clean by exact Hs. reflexivity.
  - rewrite str_join_cons by discriminate. rewrite split_loop_app_clean by exact Hs.
    change (String sep "" ++ str_join (String sep "") (t :: l))
      with (String sep (str_join (String sep "") (t :: l))).
    cbn [split_loop]. rewrite Ascii.eqb_refl. f_equal.
    rewrite IH by (auto; discriminate). reflexivity.
Qed.

Lemma join_split sep l :
  Forall (fun s => no_char sep s = true) l -> l <> [] ->
  str_split sep (str_join (String sep "") l) = l.
Proof.
  intros HF Hn. unfold str_split. rewrite join_split_cur by assumption.
  destruct l; [congruence|reflexivity].
Qed.

Lemma split_loop_clean sep cur s :
  no_char sep cur = true -> Forall (fun x => no_char sep x = true) (split_loop sep cur s).
Proof.
  revert cur; induction s as [|c s IH]; intros cur Hc; simpl.
  - constructor; auto.
  - destruct (Ascii.eqb c sep) eqn:E.
    + constructor; auto.
    + apply IH. unfold no_char in *. rewrite str_all_app, Hc. simpl. now rewrite E.
Qed.

Lemma split_clean sep s : Forall (fun x => no_char sep x = true) (str_split sep s).
Proof. apply split_loop_clean. reflexivity. Qed.

(** * Comparison *)

Lemma str_compare_refl a : str_compare a a = 0%Z.
Proof.
  unfold str_compare. 
  assert (H : String.compare a a = Eq).
  { pose proof (String.compare_antisym a a) as H. destruct (String.compare a a); simpl in H; congruence. }
  now rewrite H.
Qed.

Lemma str_compare_eq a b : str_compare a b = 0%Z <-> a = b.
Proof.
  split; [|intros ->; apply str_compare_refl].
  unfold str_compare. destruct (String.compare a b) eqn:E; try discriminate.
  intros _. now apply String.compare_eq_iff.
Qed.

Lemma str_compare_opp a b : str_compare a b = (- str_compare b a)%Z.
Proof.
  unfold str_compare. rewrite String.compare_antisym.
  destruct (String.compare b a); reflexivity.
Qed.

(** * Taking and dropping *)

Lemma str_take_app_length a b : str_take (String.length a) (a ++ b) = a.
Proof. induction a as [|c a IH]; simpl; [destruct b; reflexivity | now rewrite IH]. Qed.

Lemma str_drop_app_length a b : str_drop (String.length a) (a ++ b) = b.
Proof. induction a as [|c a IH]; simpl; [destruct b; reflexivity | exact IH]. Qed.

Lemma has_prefix_app p s : has_prefix (p ++ s) p = true.
Proof. induction p as [|c p IH]; simpl; [destruct s; reflexivity|]. now rewrite Ascii.eqb_refl. Qed.

Lemma has_prefix_spec s p : has_prefix s p = true <-> exists r, s = p ++ r.
Proof.
  split.
  - revert s; induction p as [|c p IH]; intros s H.
    + exists s. reflexivity.
    + destruct s as [|d s]; simpl in H; [discriminate|].
      apply andb_true_iff in H as [Hc H]. apply Ascii.eqb_eq in Hc. subst d.
      destruct (IH _ H) as [r ->]. exists r. reflexivity.
  - intros [r ->]. apply has_prefix_app.
Qed.

Lemma trim_prefix_app p s : trim_prefix (p ++ s) p = s.
Proof. unfold trim_prefix. rewrite has_prefix_app. apply str_drop_app_length. Qed.
