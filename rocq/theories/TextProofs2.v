(** Proofs about the removal of blank lines. *)
From Coq Require Import Ascii String Bool Arith ZArith NArith Lia List.
From Verif Require Import GoStrings GoStringsProofs ReporterModel TextModel TextSpec TextProofs.
Import ListNotations.
Local Open Scope string_scope.

Lemma trim_left_app_all p a s : str_all p a = true -> trim_left_func p (a ++ s) = trim_left_func p s.
Proof. induction a as [|c a IH]; cbn; [auto|]. destruct (p c); [exact IH|discriminate]. Qed.

Lemma trim_left_app p x y : str_all p x = false -> trim_left_func p (x ++ y) = (trim_left_func p x ++ y)%string.
Proof. induction x as [|c x IH]; cbn; [discriminate|]. destruct (p c); [exact IH|reflexivity]. Qed.

Lemma trim_right_app_all p s b : str_all p b = true -> trim_right_func p (s ++ b) = trim_right_func p s.
Proof.
  intros B. induction s as [|c s IH]; cbn [append]; [now apply trim_right_all|]. cbn [trim_right_func]. now rewrite IH.
Qed.

Lemma trim_right_keep p s c : p c = false -> trim_right_func p (s ++ String c "") = (s ++ String c "")%string.
Proof.
  intros P. induction s as [|d s IH]; cbn [append trim_right_func]; [now rewrite P|]. rewrite IH. now destruct s.
Qed.

Lemma trim_space_parts s : blank s \/ exists a t b, s = (a ++ t ++ b)%string /\ blank a /\ blank b /\ t = trim_space s /\
  (exists c r, t = String c r /\ is_space c = false).
Proof.
  destruct (blank_dec s) as [B|B]; [now left|right]. unfold trim_space.
  destruct (trim_left_split is_space s) as (a & E & A). destruct (trim_right_split is_space (trim_left_func is_space s)) as (b & E' & B').
  exists a, (trim_right_func is_space (trim_left_func is_space s)), b. split; [congruence|]. split; [now apply blank_all|]. split; [now apply blank_all|].
  split; [reflexivity|].
  destruct (trim_left_first is_space s) as [T|(c & r & T & P)]; [apply trim_left_all in T; exfalso; apply B; now apply blank_all|].
  rewrite T in *. cbn [trim_right_func]. destruct (trim_right_func is_space r); [rewrite P|]; eauto.
Qed.

Lemma opens_spec s : has_suffix (trim_space s) " {" = true <-> opens s.
Proof.
  split.
  - intros H. destruct (trim_space_parts s) as [B|(a & t & b & E & A & B & T & (c & r & Tc & P))].
    { apply trim_space_blank in B. rewrite B in H. discriminate. }
    rewrite <- T in H. apply suffix_spec in H. destruct H as (x & X). exists (a ++ x)%string, b. split; [rewrite E, X, !sapp_assoc; reflexivity|].
    split; [|exact B]. rewrite blank_all, str_all_app. intros H. apply andb_true_iff in H. destruct H as [_ H].
    destruct x as [|e x]; [rewrite Tc in X; injection X as -> X; discriminate P|]. rewrite Tc in X. injection X as -> X. cbn in H. rewrite P in H. discriminate.
  - intros (a & b & -> & A & B). apply suffix_spec. exists (trim_left_func is_space a). unfold trim_space.
    rewrite trim_left_app by (destruct (str_all is_space a) eqn:Q; [exfalso; apply A; now apply blank_all|reflexivity]).
    rewrite <- !sapp_assoc. rewrite trim_right_app_all by now apply blank_all.
    change " {" with (" " ++ String "{" ""). rewrite <- sapp_assoc. now rewrite trim_right_keep.
Qed.

Lemma closes_spec s : trim_space s = "}" <-> closes s.
Proof.
  split.
  - intros H. destruct (trim_space_parts s) as [B|(a & t & b & E & A & B & T & _)]; [apply trim_space_blank in B; rewrite B in H; discriminate|].
    rewrite H in T. subst t. exists a, b. auto.
  - intros (a & b & -> & A & B). unfold trim_space. rewrite trim_left_app_all by now apply blank_all. cbn [append trim_left_func].
    change (String "}" b) with (String "}" "" ++ b). change (is_space "}") with false. cbv iota. rewrite trim_right_app_all by now apply blank_all. reflexivity.
Qed.

Lemma comment_spec s : has_prefix (trim_space s) "//" = true <-> comment s.
Proof.
  split.
  - intros H. destruct (trim_space_parts s) as [B|(a & t & b & E & A & B & T & _)]; [apply trim_space_blank in B; rewrite B in H; discriminate|].
    rewrite <- T in H. apply has_prefix_spec in H. destruct H as (r & R). exists a, (r ++ b)%string. split; [rewrite E, R, !sapp_assoc; reflexivity|exact A].
  - intros (a & b & -> & A). unfold trim_space. rewrite trim_left_app_all by now apply blank_all. cbn [append trim_left_func].
    change (is_space "/") with false. cbv iota. cbn [trim_right_func].
    destruct (trim_right_func is_space b); change (is_space "/") with false; cbv iota; reflexivity.
Qed.

Lemma opens_not_blank s : opens s -> ~ blank s.
Proof. intros H B. apply opens_spec in H. apply trim_space_blank in B. rewrite B in H. discriminate. Qed.
Lemma closes_not_blank s : closes s -> ~ blank s.
Proof. intros H B. apply closes_spec in H. apply trim_space_blank in B. rewrite B in H. discriminate. Qed.
Lemma comment_not_blank s : comment s -> ~ blank s.
Proof. intros H B. apply comment_spec in H. apply trim_space_blank in B. rewrite B in H. discriminate. Qed.
Lemma opens_not_closes s : opens s -> ~ closes s.
Proof. intros H B. apply opens_spec in H. apply closes_spec in B. rewrite B in H. discriminate. Qed.

(** The depth is the nesting. *)
Definition level (d : Z) (s : string) : Z := snd (blank_lines_step d s "").
Definition levels (d : Z) (l : list string) : Z := fold_left level l d.

Lemma step_level d s next : snd (blank_lines_step d s next) = level d s.
Proof. reflexivity. Qed.

Lemma level_spec d s : (opens s -> level d s = (d + 1)%Z) /\ (closes s -> level d s = (d - 1)%Z) /\ (~ opens s -> ~ closes s -> level d s = d).
Proof.
  unfold level, blank_lines_step. cbv zeta. cbn [snd]. rewrite <- opens_spec, <- closes_spec.
  destruct (has_suffix (trim_space s) " {") eqn:O, (String.eqb_spec (trim_space s) "}") as [C|C]; repeat split; intros; try congruence; try contradiction.
  - exfalso. apply opens_spec in O. apply closes_spec in C. now apply (opens_not_closes s).
  - exfalso. apply opens_spec in O. apply closes_spec in C. now apply (opens_not_closes s).
Qed.

Lemma opens_dec s : {opens s} + {~ opens s}.
Proof. destruct (has_suffix (trim_space s) " {") eqn:E; [left; now apply opens_spec|right]. intros H. apply opens_spec in H. congruence. Qed.
Lemma closes_dec s : {closes s} + {~ closes s}.
Proof. destruct (String.eqb_spec (trim_space s) "}") as [E|E]; [left; now apply closes_spec|right]. intros H. apply closes_spec in H. congruence. Qed.
Lemma comment_dec s : {comment s} + {~ comment s}.
Proof. destruct (has_prefix (trim_space s) "//") eqn:E; [left; now apply comment_spec|right]. intros H. apply comment_spec in H. congruence. Qed.

Lemma nesting_levels l : nesting l (levels 0 l).
Proof.
  induction l as [|s l IH] using rev_ind; [constructor|]. unfold levels in *. rewrite fold_left_app. cbn [fold_left].
  destruct (level_spec (fold_left level l 0%Z) s) as (A & B & C).
  destruct (opens_dec s) as [O|O]; [rewrite (A O); now apply nest_open|]. destruct (closes_dec s) as [D|D]; [rewrite (B D); now apply nest_close|].
  rewrite (C O D). now apply nest_other.
Qed.

Lemma nesting_unique l d : nesting l d -> d = levels 0 l.
Proof.
  induction 1; [reflexivity|..]; unfold levels in *; rewrite fold_left_app; cbn [fold_left]; rewrite <- IHnesting;
    symmetry; now apply level_spec.
Qed.

Lemma kept_spec a s next : kept a s next <-> fst (blank_lines_step (levels 0 a) s next) = [s].
Proof.
  unfold kept, blank_lines_step. cbv zeta. cbn [fst]. destruct (String.eqb_spec (trim_space s) "") as [B|B].
  - assert (Bs : blank s) by now apply trim_space_blank.
    assert (O : has_suffix (trim_space s) " {" = false) by (now rewrite B). rewrite O. destruct (Z.ltb_spec 0 (levels 0 a)); cbn [andb].
    + destruct (has_prefix (trim_space next) "//") eqn:C.
      * split; [reflexivity|]. intros _. right. split; [now apply comment_spec|]. exists (levels 0 a). split; [apply nesting_levels|assumption].
      * split; [|discriminate]. intros [H'|[H' _]]; [contradiction|]. apply comment_spec in H'. congruence.
    + split; [|discriminate]. intros [H'|[_ (d & N & P)]]; [contradiction|]. apply nesting_unique in N. lia.
  - split; [reflexivity|]. intros _. left. rewrite <- trim_space_blank. exact B.
Qed.

Lemma step_printed d x y : fst (blank_lines_step d x y) = [] \/ fst (blank_lines_step d x y) = [x].
Proof. unfold blank_lines_step. cbv zeta. cbn [fst]. repeat match goal with |- context [if ?b then _ else _] => destruct b end; auto. Qed.

Lemma not_kept a s next : ~ kept a s next -> fst (blank_lines_step (levels 0 a) s next) = [].
Proof.
  rewrite kept_spec. intros H. destruct (step_printed (levels 0 a) s next) as [E|E]; [exact E|contradiction].
Qed.

Lemma kept_dec a s next : {kept a s next} + {~ kept a s next}.
Proof.
  destruct (list_eq_dec string_dec (fst (blank_lines_step (levels 0 a) s next)) [s]) as [E|E]; [left|right]; now rewrite kept_spec.
Qed.

(** The loop, adding lines at the end. *)
Lemma loop_snoc l : forall d x y, blank_lines_loop d x (l ++ [y]) =
  (blank_lines_loop d x l ++ fst (blank_lines_step (levels d (removelast (x :: l))) (last (x :: l) "") y))%list.
Proof.
  induction l as [|z l IH]; intros d x y.
  - cbn [app blank_lines_loop removelast last levels fold_left]. destruct (blank_lines_step d x y). cbn [fst]. now rewrite app_nil_r.
  - cbn [app blank_lines_loop]. destruct (blank_lines_step d x z) as [p d'] eqn:E. rewrite IH, app_assoc. do 2 f_equal.
    change (removelast (x :: z :: l)) with (x :: removelast (z :: l)). change (last (x :: z :: l) "") with (last (z :: l) "").
    unfold levels. cbn [fold_left]. replace (level d x) with d' by (rewrite <- (step_level d x z), E; reflexivity). reflexivity.
Qed.

Definition tidy (l : list string) : list string := blank_lines_loop 0 "" l.

Lemma level_empty d : level d "" = d.
Proof. reflexivity. Qed.

Lemma tidy_snoc a s next : tidy (a ++ [s; next]) = (tidy (a ++ [s]) ++ fst (blank_lines_step (levels 0 a) s next))%list.
Proof.
  unfold tidy. change [s; next] with ([s] ++ [next])%list. rewrite app_assoc, loop_snoc. do 2 f_equal.
  change ("" :: (a ++ [s]))%list with (("" :: a) ++ [s])%list. rewrite removelast_last, last_last. reflexivity.
Qed.

Lemma tidy_tidied l : tidied l (tidy l).
Proof.
  induction l as [|x l IH] using rev_ind; [constructor|]. destruct l as [|y l _] using rev_ind; [constructor|].
  rewrite <- app_assoc in *. cbn [app] in *. rewrite tidy_snoc. destruct (kept_dec l y x) as [K|K].
  - rewrite (proj1 (kept_spec l y x) K). now apply tidy_keep.
  - rewrite (not_kept _ _ _ K), app_nil_r. now apply tidy_remove.
Qed.

Lemma tidied_unique l r : tidied l r -> r = tidy l.
Proof.
  induction 1 as [| |a s next r H IH K|a s next r H IH K]; [reflexivity|reflexivity| |].
  - rewrite tidy_snoc, <- IH. now rewrite (proj1 (kept_spec _ _ _) K).
  - rewrite tidy_snoc, <- IH, (not_kept _ _ _ K). now rewrite app_nil_r.
Qed.

Lemma tidy_incl l : incl (tidy l) l.
Proof.
  induction l as [|x l IH] using rev_ind; [intros y []|]. destruct l as [|y l _] using rev_ind; [intros y []|].
  rewrite <- app_assoc in *. cbn [app] in *. rewrite tidy_snoc. intros z H. apply in_app_or in H. destruct H as [H|H].
  - apply IH in H. apply in_app_or in H. apply in_or_app. destruct H as [H|[H|[]]]; [now left|]. right. now left.
  - destruct (step_printed (levels 0 l) y x) as [E|E]; rewrite E in H; [destruct H|]. destruct H as [<-|[]]. apply in_or_app. right. now left.
Qed.

(** Non blank lines. *)
Lemma non_blank_app l r : forall x y, non_blank l x -> non_blank r y -> non_blank (l ++ r) (x ++ y).
Proof. intros x y H. induction H; intros R; cbn [app]; auto; [apply nb_skip|apply nb_keep]; auto. Qed.

Lemma non_blank_exists l : exists r, non_blank l r.
Proof.
  induction l as [|s l (r & R)]; [exists []; constructor|]. destruct (blank_dec s); [exists r; now apply nb_skip|exists (s :: r); now apply nb_keep].
Qed.

Lemma non_blank_unique l : forall r r', non_blank l r -> non_blank l r' -> r = r'.
Proof.
  induction l as [|s l IH]; intros r r' H H'; inversion H; inversion H'; subst; auto; try contradiction. f_equal. auto.
Qed.

Lemma tidy_non_blank l : forall r, non_blank (removelast l) r -> non_blank (tidy l) r.
Proof.
  induction l as [|x l IH] using rev_ind; [auto|]. destruct l as [|y l _] using rev_ind; [intros r H; exact H|].
  rewrite removelast_last in *. intros r H. rewrite <- app_assoc. cbn [app]. rewrite tidy_snoc.
  destruct (non_blank_exists l) as (r1 & R1). specialize (IH _ R1).
  destruct (blank_dec y) as [B|B].
  - assert (E : non_blank (l ++ [y]) (r1 ++ [])) by (apply non_blank_app; [exact R1|apply nb_skip; [exact B|constructor]]).
    rewrite (non_blank_unique _ _ _ H E). apply non_blank_app; [exact IH|].
    destruct (step_printed (levels 0 l) y x) as [->| ->]; [constructor|apply nb_skip; [exact B|constructor]].
  - assert (E : non_blank (l ++ [y]) (r1 ++ [y])) by (apply non_blank_app; [exact R1|apply nb_keep; [exact B|constructor]]).
    rewrite (non_blank_unique _ _ _ H E). apply non_blank_app; [exact IH|].
    rewrite (proj1 (kept_spec l y x)) by (left; exact B). apply nb_keep; [exact B|constructor].
Qed.

(** Consecutive blank lines: a blank line is followed by a comment, which is kept. *)
Definition good (l : list string) : Prop := forall a x y b, l = (a ++ x :: y :: b)%list -> blank x -> comment y.

Lemma good_snoc l x y : good (l ++ [x]) -> (blank x -> comment y) -> good (l ++ [x; y]).
Proof.
  intros G C a u v b E B. destruct b as [|w b _] using rev_ind.
  - change [x; y] with ([x] ++ [y])%list in E. change [u; v] with ([u] ++ [v])%list in E. rewrite !app_assoc in E.
    apply app_inj_tail in E. destruct E as [E <-]. apply app_inj_tail in E. destruct E as [_ <-]. auto.
  - change [x; y] with ([x] ++ [y])%list in E. rewrite app_assoc in E.
    replace (a ++ u :: v :: b ++ [w])%list with ((a ++ u :: v :: b) ++ [w])%list in E by (rewrite <- app_assoc; reflexivity).
    apply app_inj_tail in E. destruct E as [E _]. eapply G; eauto.
Qed.

Lemma good_one l : length l < 2 -> good l.
Proof. intros L a x y b -> B. rewrite app_length in L. cbn in L. lia. Qed.

(** The last printed line, if it is blank, is the previous line, and then the next one is a comment. *)
Lemma tidy_good l : good (tidy l) /\
  forall a x y p q, l = (a ++ [x; y])%list -> tidy l = (p ++ [q])%list -> blank q -> q = x /\ comment y /\ kept a x y.
Proof.
  induction l as [|x l IH] using rev_ind.
  { split; [apply good_one; cbn; lia|]. intros a x y p q E. destruct a; discriminate. }
  destruct l as [|y l _] using rev_ind.
  { split; [apply good_one; cbn; lia|]. intros a u v p q E. destruct a as [|? [|? ?]]; discriminate. }
  destruct IH as [G L]. rewrite <- app_assoc in *. cbn [app] in *. rewrite tidy_snoc. destruct (kept_dec l y x) as [K|K].
  - rewrite (proj1 (kept_spec l y x) K). split.
    + destruct (tidy (l ++ [y])) as [|q p _] eqn:T using rev_ind; [apply good_one; cbn; lia|]. rewrite <- app_assoc. apply good_snoc; [exact G|].
      intros B. destruct l as [|z l _] using rev_ind; [destruct p; discriminate T|]. rewrite <- app_assoc in *. cbn [app] in *.
      destruct (L l z y p q eq_refl eq_refl B) as (_ & C & _). exact C.
    + intros a u v p q E T B. change [y; x] with ([y] ++ [x])%list in E. change [u; v] with ([u] ++ [v])%list in E. rewrite !app_assoc in E.
      apply app_inj_tail in E. destruct E as [E <-]. apply app_inj_tail in E. destruct E as [<- <-]. apply app_inj_tail in T. destruct T as [_ <-].
      split; [reflexivity|]. split; [|exact K]. destruct K as [K|[K _]]; [contradiction|exact K].
  - rewrite (not_kept _ _ _ K), app_nil_r. split; [exact G|]. intros a u v p q E T B.
    exfalso. destruct l as [|z l _] using rev_ind; [change (tidy ([] ++ [y])) with (@nil string) in T; destruct p; discriminate T|].
    rewrite <- app_assoc in *. cbn [app] in *. destruct (L l z y p q eq_refl T B) as (_ & C & _). apply K. left. now apply comment_not_blank.
Qed.

Lemma good_no_double l : good l -> no_double_blanks l.
Proof. intros G a x y b E [B B']. apply (comment_not_blank y); [|exact B']. eapply G; eauto. Qed.

(** The nesting doesn't depend on blank lines. *)
Lemma level_blank d s : blank s -> level d s = d.
Proof. intros B. apply level_spec; intros H; [now apply (opens_not_blank s)|now apply (closes_not_blank s)]. Qed.

Lemma levels_app d a b : levels d (a ++ b) = levels (levels d a) b.
Proof. unfold levels. now rewrite fold_left_app. Qed.

Lemma tidy_levels l : levels 0 (tidy l) = levels 0 (removelast l).
Proof.
  induction l as [|x l IH] using rev_ind; [reflexivity|]. destruct l as [|y l _] using rev_ind; [reflexivity|].
  rewrite removelast_last in *. rewrite <- app_assoc. cbn [app]. rewrite tidy_snoc, levels_app, IH, levels_app.
  destruct (blank_dec y) as [B|B].
  - cbn [levels fold_left]. rewrite level_blank by exact B. destruct (step_printed (levels 0 l) y x) as [->| ->]; cbn [levels fold_left]; auto. now apply level_blank.
  - rewrite (proj1 (kept_spec l y x)) by (left; exact B). reflexivity.
Qed.

Lemma tidy_twice l : tidy (tidy l) = removelast (tidy l).
Proof.
  induction l as [|x l IH] using rev_ind; [reflexivity|]. destruct l as [|y l _] using rev_ind; [reflexivity|].
  rewrite <- app_assoc. cbn [app]. rewrite tidy_snoc. destruct (kept_dec l y x) as [K|K]; [|now rewrite (not_kept _ _ _ K), app_nil_r].
  rewrite (proj1 (kept_spec l y x) K), removelast_last. destruct (tidy (l ++ [y])) as [|q p _] eqn:T using rev_ind; [reflexivity|].
  rewrite <- app_assoc. cbn [app]. rewrite tidy_snoc. rewrite IH, removelast_last. f_equal. apply kept_spec.
  destruct (blank_dec q) as [B|B]; [|now left].
  destruct l as [|z l _] using rev_ind; [destruct p; discriminate T|]. rewrite <- app_assoc in *. cbn [app] in *.
  destruct (proj2 (tidy_good (l ++ [z; y])) l z y p q eq_refl T B) as (-> & C & [K'|[_ (d & N & P)]]); [contradiction|].
  right. split; [exact C|]. exists (levels 0 p). split; [apply nesting_levels|].
  assert (E : levels 0 (p ++ [z]) = levels 0 (removelast (l ++ [z; y]))) by (rewrite <- T; apply tidy_levels).
  change [z; y] with ([z] ++ [y])%list in E. rewrite app_assoc, removelast_last, !levels_app in E. cbn [levels fold_left] in E.
  rewrite !level_blank in E by exact B. apply nesting_unique in N. unfold levels in *. lia.
Qed.
