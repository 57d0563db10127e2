(** Proofs about the functions that process text. *)
From Coq Require Import Ascii String Bool Arith ZArith NArith Lia List.
From Verif Require Import GoStrings GoStringsProofs ReporterModel TextModel TextSpec.
Import ListNotations.
Local Open Scope string_scope.

(** * Characters *)

Lemma occurs_nil c : ~ occurs c "".
Proof. intros (a & b & H). destruct a; discriminate. Qed.

Lemma occurs_cons c d s : occurs c (String d s) <-> c = d \/ occurs c s.
Proof.
  split.
  - intros (a & b & H). destruct a as [|e a]; injection H as -> H; [now left|]. right. exists a, b. exact H.
  - intros [<-|(a & b & ->)]; [exists "", s; reflexivity|]. exists (String d a), b. reflexivity.
Qed.

Lemma occurs_app c a b : occurs c (a ++ b) <-> occurs c a \/ occurs c b.
Proof.
  induction a as [|d a IH]; cbn [append]; [split; [now right|intros [H|H]; [destruct (occurs_nil _ H)|exact H]]|].
  rewrite !occurs_cons, IH. tauto.
Qed.

Lemma occurs_all p s : str_all p s = true <-> forall c, occurs c s -> p c = true.
Proof.
  induction s as [|d s IH]; cbn [str_all].
  - split; [intros _ c H; destruct (occurs_nil _ H)|auto].
  - rewrite andb_true_iff, IH. split.
    + intros [H1 H2] c H. apply occurs_cons in H. destruct H as [->|H]; auto.
    + intros H. split; [apply H, occurs_cons; now left|]. intros c Hc. apply H, occurs_cons. now right.
Qed.

Lemma no_char_occurs c s : no_char c s = true <-> ~ occurs c s.
Proof.
  unfold no_char. rewrite occurs_all. split.
  - intros H O. specialize (H _ O). rewrite Ascii.eqb_refl in H. discriminate.
  - intros H d O. destruct (Ascii.eqb_spec d c) as [->|]; [contradiction|reflexivity].
Qed.

Lemma blank_all s : blank s <-> str_all is_space s = true.
Proof. unfold blank. now rewrite occurs_all. Qed.

Lemma blank_dec s : {blank s} + {~ blank s}.
Proof. destruct (str_all is_space s) eqn:E; [left; now apply blank_all|right]. intros H. apply blank_all in H. congruence. Qed.

Lemma trim_left_all p s : trim_left_func p s = "" <-> str_all p s = true.
Proof. induction s as [|c s IH]; cbn; [tauto|]. destruct (p c); cbn; [exact IH|]. split; discriminate. Qed.

Lemma trim_right_all p s : trim_right_func p s = "" <-> str_all p s = true.
Proof.
  induction s as [|c s IH]; cbn; [tauto|]. destruct (trim_right_func p s).
  - rewrite (proj1 IH eq_refl), andb_true_r. destruct (p c); split; congruence.
  - split; [discriminate|]. intros H. apply andb_true_iff in H. destruct H as [_ H]. apply IH in H. discriminate.
Qed.

Lemma trim_left_first p s : trim_left_func p s = "" \/ exists c r, trim_left_func p s = String c r /\ p c = false.
Proof. induction s as [|c s IH]; cbn; [now left|]. destruct (p c) eqn:E; [exact IH|]. right. exists c, s. auto. Qed.

Lemma trim_left_split p s : exists a, s = (a ++ trim_left_func p s)%string /\ str_all p a = true.
Proof.
  induction s as [|c s (a & E & A)]; cbn; [exists ""; auto|]. destruct (p c) eqn:P.
  - exists (String c a). split; [cbn; congruence|]. cbn. now rewrite P.
  - exists "". auto.
Qed.

Lemma trim_right_split p s : exists b, s = (trim_right_func p s ++ b)%string /\ str_all p b = true.
Proof.
  induction s as [|c s (b & E & B)]; cbn; [exists ""; auto|]. destruct (trim_right_func p s) as [|d r] eqn:T.
  - cbn in E. subst b. destruct (p c) eqn:P; [exists (String c s); cbn; rewrite P; auto|]. exists s. auto.
  - exists b. split; [|exact B]. cbn in *. congruence.
Qed.

Lemma trim_right_last p s : trim_right_func p s = "" \/ exists r c, trim_right_func p s = (r ++ String c "")%string /\ p c = false.
Proof.
  induction s as [|c s IH]; cbn; [now left|]. destruct (trim_right_func p s) as [|d r'] eqn:T.
  - destruct (p c) eqn:P; [now left|]. right. exists "", c. auto.
  - destruct IH as [IH|(r & e & E & P)]; [discriminate|]. right. exists (String c r), e. split; [cbn; congruence|exact P].
Qed.

Lemma trim_space_blank s : trim_space s = "" <-> blank s.
Proof.
  unfold trim_space. rewrite trim_right_all, blank_all. split.
  - intros H. destruct (trim_left_first is_space s) as [E|(c & r & E & P)]; [now apply trim_left_all|].
    rewrite E in H. cbn in H. rewrite P in H. discriminate.
  - intros H. apply trim_left_all in H. now rewrite H.
Qed.

(** * Lines *)

Lemma terminated_cons s l : terminated (s :: l) = (s ++ String lf (terminated l))%string.
Proof. unfold terminated. cbn [map]. destruct l; cbn [map String.concat]; [reflexivity|]. rewrite sapp_assoc. reflexivity. Qed.

Lemma terminated_app l r : terminated (l ++ r) = (terminated l ++ terminated r)%string.
Proof.
  induction l as [|s l IH]; [reflexivity|]. cbn [app]. rewrite !terminated_cons, IH, sapp_assoc. reflexivity.
Qed.

Lemma println_terminated l : println_all l = terminated l.
Proof. induction l as [|s l IH]; [reflexivity|]. rewrite terminated_cons. cbn [println_all fold_right]. fold (println_all l). now rewrite IH. Qed.

Lemma is_line_char s : is_line s <-> no_char lf s = true.
Proof. symmetry. apply no_char_occurs. Qed.

(** The pieces of a text whose lines are known. *)
Lemma split_terminated l s : Forall is_line l -> is_line s -> str_split lf (terminated l ++ s) = (l ++ [s])%list.
Proof.
  intros Hl Hs. induction Hl as [|x l Hx Hl IH]; cbn [app].
  - change (terminated []) with "". cbn [append]. unfold str_split. rewrite <- (sapp_nil_r s) at 1. rewrite split_loop_app_clean by now apply is_line_char. reflexivity.
  - rewrite terminated_cons, sapp_assoc. unfold str_split in *. rewrite split_loop_app_clean by now apply is_line_char. cbn [append split_loop].
    rewrite Ascii.eqb_refl. now rewrite IH.
Qed.

Lemma short_not_long s : short s <-> too_long s = false.
Proof. unfold short, too_long, scan_limit. rewrite N.leb_gt. tauto. Qed.

Lemma scan_terminated l s : Forall is_line l -> is_line s -> Forall short l -> short s ->
  scan_lines (terminated l ++ s) = (map drop_cr l ++ (if String.eqb s "" then [] else [drop_cr s]), None)%list.
Proof.
  intros Hl Hs Sl Ss. unfold scan_lines. rewrite split_terminated by assumption. clear Hl. induction Sl as [|x l Sx Sl IH]; cbn [app map].
  - cbn [scan_loop]. rewrite (proj1 (short_not_long s) Ss). reflexivity.
  - cbn [scan_loop]. rewrite (proj1 (short_not_long x) Sx). destruct (l ++ [s])%list as [|y r] eqn:E; [now destruct l|].
    rewrite IH. reflexivity.
Qed.

Lemma short_nil : short "".
Proof. unfold short. reflexivity. Qed.

Lemma is_line_nil : is_line "".
Proof. exact (occurs_nil lf). Qed.

Lemma scan_text s l : text_lines s l -> Forall short l -> scan_lines s = (map drop_cr l, None).
Proof.
  intros [F [->|(l' & x & -> & N & ->)]] S.
  - rewrite <- (sapp_nil_r (terminated l)). rewrite scan_terminated; auto using short_nil, is_line_nil. cbn. now rewrite app_nil_r.
  - apply Forall_app in F. destruct F as [F1 F2]. apply Forall_app in S. destruct S as [S1 S2]. inversion_clear F2. inversion_clear S2.
    rewrite scan_terminated by assumption. rewrite map_app. destruct (String.eqb_spec x ""); [contradiction|reflexivity].
Qed.

Lemma scan_text_long s l : text_lines s l -> ~ Forall short l -> exists rest, snd (scan_lines s) = Some rest.
Proof.
  assert (G : forall l r, r <> [] -> ~ Forall short (l ++ r) -> exists rest, snd (scan_loop (l ++ r)%list) = Some rest).
  { induction l0 as [|x l0 IH]; intros r N H; cbn [app] in *.
    - revert N H. induction r as [|y r IHr]; intros N H; [contradiction|]. cbn [scan_loop]. destruct (too_long y) eqn:E; [cbn [snd]; eauto|].
      destruct r as [|z r]; [exfalso; apply H; repeat constructor; now apply short_not_long|].
      destruct IHr as (rest & R); [discriminate|intros F; apply H; constructor; [now apply short_not_long|exact F]|].
      destruct (scan_loop (z :: r)) as [a b]. exists rest. exact R.
    - cbn [scan_loop]. destruct (too_long x) eqn:E; [cbn [snd]; eauto|]. destruct (IH r N) as (rest & R).
      { intros F. apply H. constructor; [now apply short_not_long|exact F]. }
      destruct (l0 ++ r)%list as [|z q] eqn:Q; [now destruct l0|]. destruct (scan_loop (z :: q)) as [a b]. exists rest. exact R. }
  intros [F [->|(l' & x & -> & N & ->)]] S; unfold scan_lines.
  - rewrite <- (sapp_nil_r (terminated l)). rewrite split_terminated by auto using is_line_nil. apply G; [discriminate|].
    intros H. apply Forall_app in H. now apply S.
  - apply Forall_app in F. destruct F as [F1 F2]. inversion_clear F2. rewrite split_terminated by assumption. apply G; [discriminate|exact S].
Qed.

(** Every text has lines. *)
Lemma lines_exist s : exists l, text_lines s l.
Proof.
  pose proof (split_clean lf s) as F. pose proof (split_join lf s) as J.
  assert (G : forall l : list string, l <> [] -> exists l' x, l = (l' ++ [x])%list) by (intros l N; destruct (exists_last N) as (l' & x & E); eauto).
  destruct (G (str_split lf s)) as (l' & x & E); [apply split_loop_not_nil|]. rewrite E in *.
  assert (F1 : Forall is_line l' /\ is_line x).
  { apply Forall_app in F. destruct F as [F1 F2]. inversion_clear F2. split; [|now apply is_line_char].
    eapply Forall_impl; [|exact F1]. intros a H'. cbv beta in H'. now apply is_line_char. }
  assert (T : s = (terminated l' ++ x)%string).
  { rewrite <- J. clear. induction l' as [|y l' IH]; [reflexivity|]. cbn [app]. rewrite str_join_cons by (now destruct l'). rewrite IH, terminated_cons, sapp_assoc. reflexivity. }
  destruct F1 as [F1 F2]. destruct (String.eqb_spec x "") as [->|N].
  - exists l'. split; [exact F1|]. left. now rewrite T, sapp_nil_r.
  - exists (l' ++ [x])%list. split; [apply Forall_app; auto|]. right. exists l', x. auto.
Qed.

Lemma suffix_spec s p : has_suffix s p = true <-> exists a, s = (a ++ p)%string.
Proof.
  unfold has_suffix. rewrite andb_true_iff, Nat.leb_le, String.eqb_eq. split.
  - intros [L E]. exists (str_take (String.length s - String.length p) s). rewrite <- E at 2.
    generalize (String.length s - String.length p). clear. intros n. revert s. induction n as [|n IH]; intros [|c s]; cbn; auto. now rewrite <- IH.
  - intros (a & ->). rewrite sapp_length. split; [lia|]. replace (String.length a + String.length p - String.length p) with (String.length a) by lia.
    apply str_drop_app_length.
Qed.

Lemma drop_cr_plain s : ~ occurs cr s -> drop_cr s = s.
Proof.
  intros H. unfold drop_cr. destruct (has_suffix s (String cr "")) eqn:E; [|reflexivity]. apply suffix_spec in E. destruct E as (a & ->).
  exfalso. apply H, occurs_app. right. apply occurs_cons. now left.
Qed.

Lemma drop_cr_map l : Forall (fun s => ~ occurs cr s) l -> map drop_cr l = l.
Proof. induction 1 as [|x l H F IH]; [reflexivity|]. cbn. now rewrite drop_cr_plain, IH. Qed.

Lemma terminated_occurs c l : occurs c (terminated l) <-> (l <> [] /\ c = lf) \/ exists x, In x l /\ occurs c x.
Proof.
  induction l as [|x l IH].
  - split; [intros H; destruct (occurs_nil _ H)|intros [[H _]|(x & [] & _)]; contradiction].
  - rewrite terminated_cons, occurs_app, occurs_cons, IH. split.
    + intros [H|[H|[[_ H]|(y & H1 & H2)]]]; [right; exists x; cbn; auto|left; split; [discriminate|auto]|left; split; [discriminate|auto]|].
      right. exists y. cbn; auto.
    + intros [[_ H]|(y & [<-|H1] & H2)]; [auto|auto|]. right. right. right. eauto.
Qed.

Lemma plain_lines s l : plain_text s -> text_lines s l -> Forall (fun s => ~ occurs cr s) l.
Proof.
  intros P [_ [->|(l' & x & -> & _ & ->)]]; unfold plain_text in P.
  - apply Forall_forall. intros y Hy O. apply P, terminated_occurs. right. eauto.
  - apply Forall_app. split; [apply Forall_forall; intros y Hy O; apply P, occurs_app; left; apply terminated_occurs; right; eauto|].
    repeat constructor. intros O. apply P, occurs_app. now right.
Qed.

Lemma drop_cr_line s : is_line s -> is_line (drop_cr s).
Proof.
  unfold drop_cr. destruct (has_suffix s (String cr "")) eqn:E; auto. apply suffix_spec in E. destruct E as (a & ->).
  intros H. rewrite sapp_length. cbn [String.length]. replace (String.length a + 1 - 1) with (String.length a) by lia. rewrite str_take_app_length.
  intros O. apply H, occurs_app. now left.
Qed.

Lemma drop_cr_short s : short s -> short (drop_cr s).
Proof.
  unfold drop_cr. destruct (has_suffix s (String cr "")) eqn:E; auto. apply suffix_spec in E. destruct E as (a & ->).
  unfold short. rewrite sapp_length. cbn [String.length]. replace (String.length a + 1 - 1) with (String.length a) by lia. rewrite str_take_app_length. lia.
Qed.

Lemma drop_cr_blank s : blank (drop_cr s) <-> blank s.
Proof.
  unfold drop_cr. destruct (has_suffix s (String cr "")) eqn:E; [|tauto]. apply suffix_spec in E. destruct E as (a & ->).
  rewrite sapp_length. cbn [String.length]. replace (String.length a + 1 - 1) with (String.length a) by lia. rewrite str_take_app_length.
  rewrite !blank_all, str_all_app. cbn. rewrite !andb_true_r. tauto.
Qed.
