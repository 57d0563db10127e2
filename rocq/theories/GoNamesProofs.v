(** Proofs about Go names and packages. *)
From Coq Require Import Ascii String Bool Arith ZArith Lia List.
From Verif Require Import GoStrings GoStringsProofs GoMap NamesModel NamesSpec NamesProofs
  ConceptsModel BindingModel BindingSpec BindingProofs GoNamesModel GoNamesSpec.
Import ListNotations.
Local Open Scope string_scope.

(** * Reserved words *)

Lemma reserved_iff w : existsb (String.eqb w) reserved_words = true <-> In w go_keywords.
Proof.
  rewrite existsb_exists. split.
  - intros (k & Hk & E). apply String.eqb_eq in E as <-. revert Hk. unfold reserved_words, go_keywords.
    intros H. simpl in H. repeat destruct H as [<-|H]; simpl; tauto.
  - intros H. exists w. rewrite String.eqb_refl. split; [|reflexivity]. revert H. unfold reserved_words, go_keywords.
    intros H. simpl in H. repeat destruct H as [<-|H]; simpl; tauto.
Qed.

Lemma keyword_underscore w : ~ In (w ++ "_") go_keywords.
Proof.
  intros H. assert (E : exists k, In k go_keywords /\ k = w ++ "_") by eauto. clear H. destruct E as (k & H & E).
  assert (L : last (list_ascii_of_string k) "a"%char = "_"%char).
  { subst k. clear. induction w as [|c w IH]; [reflexivity|]. cbn [append list_ascii_of_string].
    destruct w as [|d w]; [reflexivity|]. cbn [append list_ascii_of_string] in *. exact IH. }
  clear E w. simpl in H. repeat destruct H as [<-|H]; try discriminate L; contradiction.
Qed.

Lemma avoid_not_keyword w : ~ In (avoid_reserved w) go_keywords.
Proof.
  unfold avoid_reserved. pose proof (reserved_iff w) as R. destruct (existsb _ _).
  - apply keyword_underscore.
  - intros H. apply R in H. discriminate.
Qed.

Lemma avoid_other w : ~ In w go_keywords -> avoid_reserved w = w.
Proof.
  intros H. unfold avoid_reserved. pose proof (reserved_iff w) as R. destruct (existsb _ _); [|reflexivity].
  exfalso. apply H, R. reflexivity.
Qed.

Lemma avoid_keyword w : In w go_keywords -> avoid_reserved w = w ++ "_".
Proof. intros H. unfold avoid_reserved. apply reserved_iff in H. now rewrite H. Qed.

Lemma sapp_inv_tail a b c : a ++ c = b ++ c -> a = b.
Proof.
  intros H. assert (L : String.length a = String.length b).
  { apply (f_equal String.length) in H. rewrite !sapp_length in H. lia. }
  apply (sapp_inv_length _ _ _ _ L H).
Qed.

Lemma avoid_injective a b :
  (forall k, In k go_keywords -> a <> k ++ "_") -> (forall k, In k go_keywords -> b <> k ++ "_") ->
  avoid_reserved a = avoid_reserved b -> a = b.
Proof.
  intros Ha Hb E. destruct (in_dec String.string_dec a go_keywords) as [Ia|Ia];
    destruct (in_dec String.string_dec b go_keywords) as [Ib|Ib].
  - rewrite (avoid_keyword a Ia), (avoid_keyword b Ib) in E. eapply sapp_inv_tail, E.
  - rewrite (avoid_keyword a Ia), (avoid_other b Ib) in E. exfalso. exact (Hb a Ia (eq_sym E)).
  - rewrite (avoid_other a Ia), (avoid_keyword b Ib) in E. exfalso. exact (Ha b Ib E).
  - rewrite (avoid_other a Ia), (avoid_other b Ib) in E. exact E.
Qed.

Lemma go_public_camel n : go_public n = avoid_reserved (camel n).
Proof. reflexivity. Qed.

Lemma upper_not_keyword t : camel_identifier t -> ~ In t go_keywords.
Proof.
  intros (c & r & -> & Hc & _) H.
  assert (L : is_lower c = true).
  { simpl in H. repeat destruct H as [[= <- <-]|H]; try reflexivity; contradiction. }
  rewrite (ud_not_lower _ Hc) in L. discriminate.
Qed.

Lemma public_of_parse t : camel_identifier t -> go_public (parse_using_case t) = t.
Proof.
  intros H. rewrite go_public_camel, (camel_parse t H). apply avoid_other. now apply upper_not_keyword.
Qed.

Lemma public_injective t u : camel_identifier t -> camel_identifier u ->
  go_public (parse_using_case t) = go_public (parse_using_case u) -> t = u.
Proof. intros Ht Hu. now rewrite (public_of_parse t Ht), (public_of_parse u Hu). Qed.

Lemma object_name_renamed t s : renamed (t_annots t) "go" s -> object_name t = s.
Proof.
  intros H. apply text_renamed in H as [E H]. unfold object_name. cbv zeta. unfold go_name. rewrite E.
  destruct (String.eqb_spec s ""); [contradiction|reflexivity].
Qed.

Lemma object_name_default t : not_renamed (t_annots t) "go" -> object_name t = go_public (t_name t).
Proof. intros H. unfold object_name. cbv zeta. unfold go_name. now rewrite (text_not_renamed _ _ H). Qed.

(** * Paths *)

Lemma plain_no_slash s : plain_segment s -> no_char "/" s = true.
Proof. intros (_ & _ & _ & H). now apply free_of_no_char. Qed.

Lemma split_loop_sep sep cur a b :
  split_loop sep cur (a ++ String sep b) = (split_loop sep cur a ++ split_loop sep "" b)%list.
Proof.
  revert cur. induction a as [|c a IH]; intros cur; cbn [append split_loop].
  - rewrite Ascii.eqb_refl. reflexivity.
  - destruct (Ascii.eqb c sep); [cbn [app]; now rewrite IH|apply IH].
Qed.

Lemma split_sep sep a b : str_split sep (a ++ String sep b) = (str_split sep a ++ str_split sep b)%list.
Proof. apply split_loop_sep. Qed.

Lemma split_plain s : no_char "/" s = true -> str_split "/" s = [s].
Proof.
  intros H. assert (E := join_split "/" [s]). cbn [str_join] in E. apply E; [|discriminate]. constructor; [assumption|constructor].
Qed.

Lemma clean_plain r st ps : Forall plain_segment ps -> clean_parts r st ps = (rev st ++ ps)%list.
Proof.
  revert st. induction ps as [|p ps IH]; intros st H; [now rewrite app_nil_r|].
  inversion H as [|? ? (H1 & H2 & H3 & _) Hps]; subst. cbn [clean_parts].
  destruct (String.eqb_spec p ""); [contradiction|]. destruct (String.eqb_spec p "."); [contradiction|].
  destruct (String.eqb_spec p ".."); [contradiction|]. cbn [orb]. rewrite (IH _ Hps). simpl. now rewrite <- app_assoc.
Qed.

Lemma clean_app r ps : forall st l, Forall plain_segment ps ->
  clean_parts r st (l ++ ps) = (clean_parts r st l ++ ps)%list.
Proof.
  intros st l Hps. revert st. induction l as [|p l IH]; intros st; [cbn [app clean_parts]; now apply clean_plain|].
  cbn [app clean_parts]. destruct (String.eqb p "" || String.eqb p "."); [apply IH|].
  destruct (String.eqb p ".."); [|apply IH]. destruct st as [|q qs]; [apply IH|].
  destruct (String.eqb q ".."); apply IH.
Qed.

Lemma join_app_plain l ps : l <> [] -> ps <> [] ->
  str_join "/" (l ++ ps) = str_join "/" l ++ "/" ++ str_join "/" ps.
Proof. intros. now apply str_join_app. Qed.

Lemma eqb_app_false a b : b <> "" -> String.eqb (a ++ b) "" = false.
Proof.
  intros H. destruct (String.eqb_spec (a ++ b) "") as [E|E]; [|reflexivity].
  apply sapp_eq_nil in E as [_ E]. contradiction.
Qed.

Lemma join_not_nil ps : ps <> [] -> Forall plain_segment ps -> str_join "/" ps <> "".
Proof.
  intros H1 H2. destruct ps as [|p ps]; [contradiction|]. inversion H2 as [|? ? (H & _) _]; subst.
  destruct ps as [|q ps]; [exact H|]. rewrite str_join_cons by discriminate. intros E.
  apply sapp_eq_nil in E as [E _]. contradiction.
Qed.

(** Prefix of the slash that makes a path absolute. *)
Definition root (b : bool) : string := if b then "/" else "".

Lemma clean_of_parts r l ps : l = str_split "/" r -> ps <> [] -> Forall plain_segment ps ->
  path_clean (r ++ "/" ++ str_join "/" ps) =
  root (has_prefix (r ++ "/") "/") ++ str_join "/" (clean_parts (has_prefix (r ++ "/") "/") [] l ++ ps).
Proof.
  intros -> Hne Hps. unfold path_clean. cbv zeta.
  assert (P : has_prefix (r ++ "/" ++ str_join "/" ps) "/" = has_prefix (r ++ "/") "/").
  { assert (Z : forall x, has_prefix x "" = true) by (intros []; reflexivity).
    destruct r as [|c r]; cbn [append has_prefix]; rewrite !Z; reflexivity. }
  rewrite P. change (r ++ "/" ++ str_join "/" ps) with (r ++ String "/" (str_join "/" ps)).
  rewrite split_sep, (join_split "/" ps); [| |exact Hne]; [|eapply Forall_impl; [|exact Hps]; intros a; apply plain_no_slash].
  rewrite (clean_app _ ps [] _ Hps). destruct (has_prefix (r ++ "/") "/"); [reflexivity|].
  cbn [root append]. destruct (clean_parts false [] (str_split "/" r)) as [|q l].
  - cbn [app]. rewrite <- (sapp_nil_r (str_join "/" ps)) at 1.
    pose proof (join_not_nil ps Hne Hps). destruct (String.eqb_spec (str_join "/" ps ++ "") "") as [E|E]; [|reflexivity].
    rewrite sapp_nil_r in E. contradiction.
  - rewrite join_app_plain by (discriminate || assumption). rewrite eqb_app_false; [reflexivity|].
    simpl. discriminate.
Qed.

Lemma trim_plain p a b : b <> "" -> trim_right_func p b = b -> trim_right_func p (a ++ b) = a ++ b.
Proof.
  intros Hb H. induction a as [|c a IH]; [exact H|]. cbn [append trim_right_func]. rewrite IH.
  destruct (a ++ b) eqn:E; [|reflexivity]. apply sapp_eq_nil in E as [_ E]. contradiction.
Qed.

Lemma trim_no_slash b : no_char "/" b = true -> trim_right_func (fun c => Ascii.eqb c "/") b = b.
Proof.
  induction b as [|c b IH]; [reflexivity|]. unfold no_char. cbn [str_all trim_right_func]. intros H.
  apply andb_true_iff in H as [H1 H2]. fold (no_char "/" b) in H2. rewrite (IH H2). destruct b; [|reflexivity].
  apply negb_true_iff in H1. rewrite H1. reflexivity.
Qed.

Lemma base_of_last r s : plain_segment s -> path_base (r ++ "/" ++ s) = s.
Proof.
  intros H. pose proof (plain_no_slash s H) as Hs. destruct H as (H1 & _). unfold path_base. cbv zeta.
  change (r ++ "/" ++ s) with (r ++ String "/" s).
  rewrite eqb_app_false by discriminate.
  assert (T : trim_right_func (fun c => Ascii.eqb c "/") (r ++ String "/" s) = r ++ String "/" s).
  { change (String "/" s) with ("/" ++ s). rewrite <- sapp_assoc. apply trim_plain; [assumption|now apply trim_no_slash]. }
  rewrite T, split_sep, (split_plain s Hs), last_last. destruct (String.eqb_spec s ""); [contradiction|reflexivity].
Qed.

Lemma base_single s : plain_segment s -> path_base s = s.
Proof.
  intros H. pose proof (plain_no_slash s H) as Hs. destruct H as (H1 & _). unfold path_base. cbv zeta.
  destruct (String.eqb_spec s ""); [contradiction|]. rewrite (trim_no_slash s Hs), (split_plain s Hs).
  cbn [last]. destruct (String.eqb_spec s ""); [contradiction|reflexivity].
Qed.

(** * Packages *)

Lemma negb_nonempty s : s <> "" -> negb (String.eqb s "") = true.
Proof. intros H. destruct (String.eqb_spec s ""); [contradiction|reflexivity]. Qed.

Lemma join_two a b : plain_segment a -> plain_segment b -> path_join [a; b] = a ++ "/" ++ b.
Proof.
  intros Ha Hb. unfold path_join. cbn [filter].
  rewrite (negb_nonempty a), (negb_nonempty b) by (apply Ha || apply Hb).
  cbn [str_join]. 
  assert (P : forall r, plain_segment r -> has_prefix (r ++ "/") "/" = false).
  { intros r Hr. pose proof (plain_no_slash r Hr) as H. destruct r as [|c r]; [destruct Hr; contradiction|].
    unfold no_char in H. cbn [str_all] in H. apply andb_true_iff in H as [H _]. apply negb_true_iff in H.
    cbn [append has_prefix]. rewrite Ascii.eqb_sym in H. rewrite H. reflexivity. }
  change (path_clean (a ++ "/" ++ str_join "/" [b]) = a ++ "/" ++ b).
  rewrite (clean_of_parts a _ [b] eq_refl ltac:(discriminate)) by (constructor; [assumption|constructor]).
  rewrite (P a Ha), (split_plain a (plain_no_slash a Ha)), clean_plain by (constructor; [assumption|constructor]).
  reflexivity.
Qed.

Lemma join_base base ps : base <> "" -> ps <> [] -> Forall plain_segment ps ->
  exists r l, path_join [base; str_join "/" ps] = r ++ str_join "/" (l ++ ps) /\
    (r = "" \/ r = "/") /\ r = root (has_prefix (base ++ "/") "/") /\
    l = clean_parts (has_prefix (base ++ "/") "/") [] (str_split "/" base).
Proof.
  intros Hb Hne Hps. unfold path_join. cbn [filter].
  rewrite (negb_nonempty base), (negb_nonempty _ (join_not_nil _ Hne Hps)) by assumption.
  change (str_join "/" [base; str_join "/" ps]) with (base ++ "/" ++ str_join "/" ps).
  rewrite (clean_of_parts base _ ps eq_refl Hne Hps). eexists _, _. split; [reflexivity|].
  split; [|split; reflexivity]. destruct (has_prefix (base ++ "/") "/"); auto.
Qed.

Lemma lower_joined_squeezed n : lower_joined "" n = squeezed n.
Proof.
  unfold lower_joined, squeezed. rewrite str_join_empty_sep. unfold texts. induction (n_words n) as [|w ws IH]; [reflexivity|].
  cbn [map fold_right]. rewrite str_lower_app. now rewrite IH.
Qed.

Lemma version_package_spec s v : plain_segment (squeezed s) -> plain_segment (squeezed v) ->
  version_package s v = squeezed s ++ "/" ++ squeezed v.
Proof. intros Hs Hv. unfold version_package. rewrite !lower_joined_squeezed. now apply join_two. Qed.

Lemma two_segments a b c d : plain_segment a -> plain_segment b -> plain_segment c -> plain_segment d ->
  a ++ "/" ++ b = c ++ "/" ++ d -> a = c /\ b = d.
Proof.
  intros Ha Hb Hc Hd E. apply (f_equal (str_split "/")) in E.
  change (a ++ "/" ++ b) with (a ++ String "/" b) in E. change (c ++ "/" ++ d) with (c ++ String "/" d) in E.
  rewrite !split_sep, !split_plain in E by now apply plain_no_slash. injection E as -> ->. auto.
Qed.

Lemma version_packages_distinct s v s' v' :
  plain_segment (squeezed s) -> plain_segment (squeezed v) -> plain_segment (squeezed s') -> plain_segment (squeezed v') ->
  version_package s v = version_package s' v' -> squeezed s = squeezed s' /\ squeezed v = squeezed v'.
Proof.
  intros H1 H2 H3 H4 E. rewrite !version_package_spec in E by assumption. now apply two_segments.
Qed.

Lemma last_of_import base ps p : base <> "" -> ps <> [] -> Forall plain_segment ps -> last ps "" = p ->
  path_base (path_join [base; str_join "/" ps]) = p.
Proof.
  intros Hb Hne Hps Hl. destruct (join_base base ps Hb Hne Hps) as (r & l & -> & Hr & _).
  destruct (exists_last Hne) as (qs & q & ->). rewrite last_last in Hl. subst q.
  apply Forall_app in Hps as [_ Hp]. inversion Hp as [|? ? Hp' _]; subst. clear Hp.
  rewrite app_assoc. destruct (l ++ qs)%list as [|x xs] eqn:E.
  - cbn [app str_join]. destruct Hr as [->| ->]; [now apply base_single|now apply (base_of_last "")].
  - rewrite join_app_plain by discriminate. cbn [str_join]. rewrite <- sapp_assoc. now apply base_of_last.
Qed.

Lemma version_selector_spec base s v : base <> "" -> plain_segment (squeezed s) -> plain_segment (squeezed v) ->
  version_selector s v = squeezed v /\ path_base (version_import base s v) = version_selector s v /\
  service_selector s = squeezed s /\ path_base (service_import base s) = service_selector s.
Proof.
  intros Hb Hs Hv. unfold version_selector, version_import, service_selector, service_import, service_package.
  rewrite !lower_joined_squeezed, !(version_package_spec s v Hs Hv), (base_of_last _ _ Hv), (base_single _ Hs).
  split; [reflexivity|]. split; [|split; [reflexivity|]].
  - change (squeezed s ++ "/" ++ squeezed v) with (str_join "/" [squeezed s; squeezed v]).
    apply last_of_import; [assumption|discriminate| |reflexivity]. auto.
  - change (squeezed s) with (str_join "/" [squeezed s]) at 1.
    apply last_of_import; [assumption|discriminate| |reflexivity]. auto.
Qed.

(** All the parts between slashes are free of slashes. *)
Lemma clean_no_slash r : forall l st, Forall (fun x => no_char "/" x = true) st -> Forall (fun x => no_char "/" x = true) l ->
  Forall (fun x => no_char "/" x = true) (clean_parts r st l).
Proof.
  intros l. induction l as [|p l IH]; intros st Hst Hl; cbn [clean_parts]; [now apply Forall_rev|].
  inversion Hl as [|? ? Hp Hl']; subst. destruct (String.eqb p "" || String.eqb p "."); [now apply IH|].
  destruct (String.eqb p "..").
  - destruct st as [|q qs]; [apply IH; [destruct r; [constructor|constructor; [reflexivity|constructor]]|assumption]|].
    inversion Hst; subst. destruct (String.eqb q ".."); apply IH; auto.
  - apply IH; auto.
Qed.

Lemma import_injective base ps qs : base <> "" -> ps <> [] -> qs <> [] -> length ps = length qs ->
  Forall plain_segment ps -> Forall plain_segment qs ->
  path_join [base; str_join "/" ps] = path_join [base; str_join "/" qs] -> ps = qs.
Proof.
  intros Hb H1 H2 L H3 H4 E.
  destruct (join_base base ps Hb H1 H3) as (r & l & E1 & _ & Er & El).
  destruct (join_base base qs Hb H2 H4) as (r' & l' & E2 & _ & Er' & El').
  rewrite E1, E2 in E. rewrite <- Er in Er'. rewrite <- El in El'. subst r' l'. apply sapp_inv_head in E.
  assert (Hl : Forall (fun x => no_char "/" x = true) l) by (subst l; apply clean_no_slash; [constructor|apply split_clean]).
  assert (N : forall zs, Forall plain_segment zs -> Forall (fun x => no_char "/" x = true) (l ++ zs)).
  { intros zs Hz. apply Forall_app. split; [assumption|]. eapply Forall_impl; [|exact Hz]. intros a. apply plain_no_slash. }
  apply (f_equal (str_split "/")) in E.
  rewrite !join_split in E by (auto; destruct l; destruct ps, qs; try discriminate; try contradiction; discriminate).
  now apply app_inv_head in E.
Qed.

Lemma imports_distinct base s v s' v' : base <> "" ->
  plain_segment (squeezed s) -> plain_segment (squeezed v) -> plain_segment (squeezed s') -> plain_segment (squeezed v') ->
  (version_import base s v = version_import base s' v' -> squeezed s = squeezed s' /\ squeezed v = squeezed v') /\
  (service_import base s = service_import base s' -> squeezed s = squeezed s').
Proof.
  intros Hb H1 H2 H3 H4. unfold version_import, service_import, service_package.
  rewrite !lower_joined_squeezed, !version_package_spec by assumption. split; intros E.
  - apply (import_injective base [squeezed s; squeezed v] [squeezed s'; squeezed v']) in E;
      try discriminate; auto. injection E as -> ->. auto.
  - apply (import_injective base [squeezed s] [squeezed s']) in E; try discriminate; auto. now injection E.
Qed.
