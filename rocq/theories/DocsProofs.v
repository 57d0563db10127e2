(** Proofs about the texts of the generated documentation. *)
From Coq Require Import Ascii String Bool Arith ZArith NArith Lia List.
From Verif Require Import GoStrings GoStringsProofs GoMap GoMapProofs NamesModel NamesSpec NamesProofs ConceptsModel BindingModel ReporterModel GoNamesModel GoNamesSpec GoNamesProofs
  TextModel TextSpec TextProofs TextProofs2 TextProofs3 TextProofs4 BufferModel DeclsModel DocsModel DocsSpec.
Import ListNotations.
Local Open Scope string_scope.

(** * Texts and pieces *)

Definition joined (l : list (nat * string)) : string := String.concat "" (map (fun p => line (fst p) (snd p)) l).
Definition spells (text : string) (pieces : list string) : Prop :=
  exists l, text = joined l /\ map snd l = pieces /\ Forall (fun p => fst p <= 5) l.

Lemma concat_cons x l : String.concat "" (x :: l) = x ++ String.concat "" l.
Proof. destruct l; cbn; [now rewrite sapp_nil_r|reflexivity]. Qed.
Lemma concat_app a b : String.concat "" (a ++ b) = String.concat "" a ++ String.concat "" b.
Proof. induction a as [|x a IH]; [reflexivity|]. cbn [app]. now rewrite !concat_cons, IH, sapp_assoc. Qed.

Lemma line_app n a b : line n (a ++ b) = line n a ++ b.
Proof. unfold line. now rewrite !sapp_assoc. Qed.
Lemma line_empty n a : line n a = line n "" ++ a.
Proof. now rewrite <- line_app. Qed.

Lemma spells_nil : spells "" [].
Proof. exists []. repeat split. constructor. Qed.
Lemma spells_line n s : n <= 5 -> spells (line n s) [s].
Proof. intros H. exists [(n, s)]. split; [reflexivity|]. split; [reflexivity|]. constructor; [exact H|constructor]. Qed.
Lemma spells_app a b p q : spells a p -> spells b q -> spells (a ++ b) (p ++ q).
Proof.
  intros (l & -> & <- & F) (l' & -> & <- & F'). exists (l ++ l')%list. unfold joined. rewrite !map_app, concat_app. split; [reflexivity|].
  split; [reflexivity|]. now apply Forall_app.
Qed.
Lemma spells_cons n s b q : n <= 5 -> spells b q -> spells (line n s ++ b) (s :: q).
Proof. intros H S. apply (spells_app _ _ [s] q); [now apply spells_line|assumption]. Qed.
Lemma spells_skip n b q : n <= 5 -> spells b q -> spells (line n b) ("" :: q).
Proof. intros H S. rewrite line_empty. now apply spells_cons. Qed.
Lemma spells_range {A} (f : A -> string) g l : (forall x, In x l -> spells (f x) (g x)) -> spells (range f l) (flat_map g l).
Proof.
  intros H. induction l as [|x l IH]; [exact spells_nil|]. unfold range. cbn [map flat_map]. rewrite concat_cons. apply spells_app; [apply H; now left|].
  apply IH. intros y I. apply H. now right.
Qed.
Lemma spells_rows {A} n (f : A -> string) l : n <= 5 -> spells (line n (range (fun x => f x ++ line n "") l)) (map f l ++ [""]).
Proof.
  intros H. induction l as [|x l IH]; [now apply spells_line|]. unfold range in *. cbn [map app]. rewrite concat_cons.
  replace (line n (((f x ++ line n "") ++ String.concat "" (map (fun y => f y ++ line n "") l))))
    with (line n (f x) ++ line n (String.concat "" (map (fun y => f y ++ line n "") l))).
  - now apply spells_cons.
  - rewrite (line_empty n (String.concat _ _)). rewrite <- sapp_assoc, <- !line_app. reflexivity.
Qed.

(** * Lines *)

Lemma lines_split s : lines_are s (str_split lf s).
Proof.
  split; [apply split_loop_not_nil|]. split; [|symmetry; apply (split_join lf)]. eapply Forall_impl; [|apply split_clean]. intros x. apply is_line_char.
Qed.
Lemma lines_unique s l : lines_are s l -> l = str_split lf s.
Proof.
  intros (N & F & ->). symmetry. apply (join_split lf); [|assumption]. eapply Forall_impl; [|exact F]. intros x. apply is_line_char.
Qed.
Lemma terminated_join l : l <> [] -> terminated l = str_join newline l ++ newline.
Proof.
  induction l as [|x l IH]; [congruence|]. intros _. rewrite terminated_cons. destruct l as [|y l]; [reflexivity|].
  rewrite IH by discriminate. rewrite (str_join_cons newline x (y :: l)) by discriminate. rewrite !sapp_assoc. reflexivity.
Qed.
Lemma terminated_split s : terminated (str_split lf s) = s ++ newline.
Proof. rewrite terminated_join by apply split_loop_not_nil. f_equal. apply (split_join lf). Qed.

Lemma joined_terminated l : forall a, a ++ joined l ++ newline = terminated (flat_map (fun s => str_split lf s) (a :: map (fun p => tabs_of (fst p) ++ snd p) l)).
Proof.
  induction l as [|[n s] l IH]; intros a.
  - cbn [flat_map map joined String.concat]. rewrite app_nil_r, terminated_split. reflexivity.
  - change (flat_map (fun s => str_split lf s) (a :: map (fun p => tabs_of (fst p) ++ snd p) ((n, s) :: l)))
      with (app (str_split lf a) (flat_map (fun s => str_split lf s) ((tabs_of n ++ s) :: map (fun p => tabs_of (fst p) ++ snd p) l))).
    rewrite terminated_app, terminated_split. rewrite <- (IH (tabs_of n ++ s)). unfold joined. cbn [map fst snd]. rewrite concat_cons. unfold line. now rewrite !sapp_assoc.
Qed.

Lemma tabs_of_all n : str_all is_tab (tabs_of n) = true.
Proof. induction n as [|n IH]; [reflexivity|]. unfold tabs_of in *. cbn [repeat]. rewrite concat_cons. cbn [append str_all]. now rewrite IH. Qed.
Lemma tabs_of_length n : String.length (tabs_of n) = n.
Proof. induction n as [|n IH]; [reflexivity|]. unfold tabs_of in *. cbn [repeat]. rewrite concat_cons. cbn [append String.length]. now rewrite IH. Qed.
Lemma tabs_of_clean n : no_char lf (tabs_of n) = true.
Proof. induction n as [|n IH]; [reflexivity|]. unfold tabs_of in *. cbn [repeat]. rewrite concat_cons. cbn [append]. unfold no_char in *. cbn [str_all]. now rewrite IH. Qed.

Lemma tab_space c : is_tab c = true -> is_space c = true.
Proof. unfold is_tab. intros H. apply Ascii.eqb_eq in H. now subst. Qed.

Lemma trim_right_keeps p a b : str_all p b = false -> trim_right_func p (a ++ b) = a ++ trim_right_func p b.
Proof.
  intros H. induction a as [|c a IH]; [reflexivity|]. cbn [append trim_right_func]. rewrite IH.
  assert (N : trim_right_func p b <> "") by (intros E; apply trim_right_all in E; congruence).
  destruct (a ++ trim_right_func p b) eqn:E; [|reflexivity]. apply sapp_eq_nil in E as [_ E]. contradiction.
Qed.

Lemma clean_tabs n s : clean (tabs_of n ++ s) = clean s.
Proof.
  unfold clean. destruct (str_all is_space s) eqn:B.
  - rewrite trim_right_app_all by assumption. pose proof (proj2 (trim_right_all is_space s) B) as ->.
    assert (S : str_all is_space (tabs_of n) = true).
    { apply occurs_all. intros c O. apply tab_space. revert c O. apply occurs_all, tabs_of_all. }
    now rewrite (proj2 (trim_right_all is_space _) S).
  - rewrite trim_right_keeps by assumption. apply trim_left_app_all, tabs_of_all.
Qed.

Lemma split_tabs n s : exists x l, str_split lf s = x :: l /\ str_split lf (tabs_of n ++ s) = (tabs_of n ++ x) :: l.
Proof.
  pose proof (lines_split s) as (N & F & E). destruct (str_split lf s) as [|x l]; [congruence|]. exists x, l. split; [reflexivity|]. symmetry. apply lines_unique.
  inversion F as [|? ? F1 F2]; subst. split; [discriminate|]. split.
  - constructor; [|assumption]. unfold is_line in *. rewrite occurs_app. intros [O|O]; [|contradiction]. revert O. apply no_char_occurs, tabs_of_clean.
  - destruct l as [|y l]; [reflexivity|]. rewrite (str_join_cons _ x (y :: l)), (str_join_cons _ _ (y :: l)) by discriminate. now rewrite sapp_assoc.
Qed.

Lemma map_clean_tabs l : map clean (flat_map (fun s => str_split lf s) (map (fun p => tabs_of (fst p) ++ snd p) l)) = map clean (flat_map (fun s => str_split lf s) (map snd l)).
Proof.
  induction l as [|[n s] l IH]; [reflexivity|]. cbn [map flat_map fst snd]. rewrite !map_app. f_equal; [|exact IH].
  destruct (split_tabs n s) as (x & r & E & E'). rewrite E, E'. cbn [map]. now rewrite clean_tabs.
Qed.

Lemma fits_short l : Forall (fun p => fst p <= 5) l -> Forall fits (map snd l) -> Forall short (flat_map (fun s => str_split lf s) (map (fun p => tabs_of (fst p) ++ snd p) l)).
Proof.
  induction l as [|[n s] l IH]; intros H F; [constructor|]. cbn [map flat_map fst snd] in *. inversion H as [|? ? H1 H2]; subst. inversion F as [|? ? F1 F2]; subst.
  apply Forall_app. split; [|now apply IH]. destruct (split_tabs n s) as (x & r & E & E'). rewrite E'.
  assert (G : forall y, In y (x :: r) -> (N.of_nat (String.length y) + 5 < 65536)%N).
  { intros y I. apply (F1 (x :: r)); [|assumption]. rewrite <- E. apply lines_split. }
  cbn [fst] in H1. constructor.
  - unfold short. rewrite sapp_length, tabs_of_length. specialize (G x (or_introl eq_refl)). lia.
  - apply Forall_forall. intros y I. unfold short. specialize (G y (or_intror I)). lia.
Qed.

(** A text followed by a line feed, without the tabs. *)
Lemma spelled_shown text pieces : spells text pieces -> Forall fits pieces -> shows ("" :: pieces) (remove_tabs (text ++ newline)).
Proof.
  intros (l & -> & <- & F) S. pose proof (joined_terminated l "") as E. cbn [append] in E. rewrite E. cbn [flat_map str_split split_loop].
  set (ls := flat_map (fun s => str_split lf s) (map (fun p => tabs_of (fst p) ++ snd p) l)).
  assert (L : Forall is_line ([""] ++ ls)%list).
  { constructor; [apply is_line_nil|]. unfold ls. apply Forall_flat_map. apply Forall_forall. intros x _. apply lines_split. }
  assert (SH : Forall short ([""] ++ ls)%list) by (constructor; [apply short_nil|now apply fits_short]).
  destruct (markdown_cleaned _ _ (terminated_lines _ L) SH) as (r & R & _ & C). exists (map (fun s => str_split lf s) ("" :: map snd l)), r. split; [|split; [|exact R]].
  - generalize ("" :: map snd l). intros p. induction p as [|x p IH]; cbn [map]; constructor; [apply lines_split|assumption].
  - apply cleaned_map. apply cleaned_map in C. rewrite C, !map_app. rewrite <- flat_map_concat_map. cbn [flat_map]. rewrite map_app. f_equal.
    apply map_clean_tabs.
Qed.
Lemma shows_unique pieces c c' : shows pieces c -> shows pieces c' -> c = c'.
Proof.
  intros (l & r & F & C & ->) (l' & r' & F' & C' & ->). f_equal. apply cleaned_map in C, C'. subst. do 2 f_equal.
  clear -F F'. revert l' F'. induction F as [|x l p ls H F IH]; intros l' F'; inversion F'; subst; [reflexivity|]. f_equal; [|now apply IH].
  rewrite (lines_unique _ _ H). symmetry. now apply lines_unique.
Qed.

(** * The texts of the templates *)

Ltac step := first [apply spells_cons; [lia|] | apply spells_skip; [lia|] | apply spells_line; lia].

Lemma tag_code n : md_tag n = code (snake n).
Proof. reflexivity. Qed.
Lemma display_camel n : md_display n = camel n.
Proof. reflexivity. Qed.
Lemma file_snake n : md_file n = snake n.
Proof. reflexivity. Qed.

Lemma range_ext {A} (f g : A -> string) l : (forall x, f x = g x) -> range f l = range g l.
Proof. intros H. unfold range. f_equal. now apply map_ext. Qed.

Lemma table_spelled {A} a b headers (f : A -> list string) (g : A -> string) l : a <= 5 -> b <= 5 -> (forall x, g x = row (f x)) ->
  spells (line a (if_any l (line b (row headers) ++ line b (row (map dashes headers)) ++ line b (range (fun x => g x ++ line b "") l)))) (table headers (map f l)).
Proof.
  intros Ha Hb G. assert (E : map row (map f l) = map g l) by (rewrite map_map; apply map_ext; intros y; symmetry; apply G).
  destruct l as [|x l]; [now apply spells_line|]. unfold if_any, table. change (map f (x :: l)) with (f x :: map f l) at 1. cbv iota. rewrite E. cbn [app].
  apply spells_skip; [assumption|]. apply spells_cons; [assumption|]. apply spells_cons; [assumption|]. now apply (spells_rows b g (x :: l)).
Qed.

Lemma section_spelled a b title doc : a <= 5 -> b <= 5 -> spells (line a title ++ line 0 "" ++ line a doc ++ line b "") (section title doc).
Proof. intros Ha Hb. unfold section. repeat (apply spells_cons; [lia|]). now apply spells_line. Qed.

Lemma enum_spelled t : exists p, enum_page t = "" :: p /\ spells (enum_text t) p.
Proof.
  eexists. split; [reflexivity|]. unfold enum_text. cbn [app]. do 4 (apply spells_cons; [lia|]). apply spells_app.
  - rewrite (range_ext (fun e => "| " ++ md_tag (ev_name e) ++ " | " ++ doc_summary (ev_doc e) ++ " |" ++ line 3 "")
      (fun e => row [code (snake (ev_name e)); doc_summary (ev_doc e)] ++ line 3 "")) by (intros e; unfold row; cbn [str_join]; rewrite !sapp_assoc; reflexivity).
    exact (table_spelled 2 3 ["Name"; "Summary"] (fun e => [code (snake (ev_name e)); doc_summary (ev_doc e)])
      (fun e => row [code (snake (ev_name e)); doc_summary (ev_doc e)]) (t_values t) ltac:(lia) ltac:(lia) (fun x => eq_refl)).
  - cbn [app]. apply spells_cons; [lia|]. rewrite line_empty, sapp_assoc. apply spells_cons; [lia|]. apply spells_app; [|apply spells_line; lia].
    apply spells_range. intros e _. apply section_spelled; lia.
Qed.

Lemma fixed_spelled {A} headers c fixed (f : A -> list string) (g : A -> string) l : (forall x, g x = row (f x)) ->
  (forall rest q, spells (line 3 rest) q -> spells (line 3 c ++ rest) (map row fixed ++ q)) ->
  spells (line 2 (if_any l (line 3 (row headers) ++ line 3 (row (map dashes headers)) ++ line 3 c ++ range (fun x => g x ++ line 3 "") l)))
    (table headers (match l with [] => [] | _ => fixed ++ map f l end)).
Proof.
  intros G H. assert (E : map row (map f l) = map g l) by (rewrite map_map; apply map_ext; intros y; symmetry; apply G).
  destruct l as [|x l]; [apply spells_line; lia|]. unfold if_any, table.
  assert (N : (fixed ++ map f (x :: l))%list <> []) by (intros N; apply app_eq_nil in N as [_ N]; discriminate).
  destruct (fixed ++ map f (x :: l))%list as [|y r] eqn:T; [congruence|]. rewrite <- T. rewrite map_app, E, <- app_assoc. cbn [app].
  apply spells_skip; [lia|]. apply spells_cons; [lia|]. apply spells_cons; [lia|]. apply H. apply (spells_rows 3 g (x :: l)). lia.
Qed.

Lemma three_rows a b c rest q : spells (line 3 rest) q -> spells (line 3 (a ++ line 4 b ++ line 4 c ++ line 3 "") ++ rest) (a :: b :: c :: q).
Proof. intros H. rewrite line_app, !sapp_assoc, <- (line_empty 3 rest). repeat (apply spells_cons; [lia|]). exact H. Qed.
Lemma no_rows rest q : spells (line 3 rest) q -> spells (line 3 "" ++ rest) q.
Proof. now rewrite <- line_empty. Qed.

Lemma class_rows t rest q : spells (line 3 rest) q ->
  spells (line 3 (if is_class t then
       "| " ++ back_ticks "kind" ++ " | String | Name of the type of the object. |" ++ line 4 "| " ++ back_ticks "id" ++ " | String | Unique identifier of the object. |" ++
       line 4 "| " ++ back_ticks "href" ++ " | String | Link to the object. |" ++ line 3 "" else "") ++ rest)
    (map row (match t_kind t with ClassType => fixed_rows | _ => [] end) ++ q).
Proof.
  intros H. unfold is_class. destruct (t_kind t); try exact (no_rows rest q H).
  exact (three_rows "| `kind` | String | Name of the type of the object. |" "| `id` | String | Unique identifier of the object. |" "| `href` | String | Link to the object. |" rest q H).
Qed.

Lemma struct_spelled t : exists p, struct_page t = "" :: p /\ spells (struct_text t) p.
Proof.
  eexists. split; [reflexivity|]. unfold struct_text. cbn [app]. do 4 (apply spells_cons; [lia|]). apply spells_app.
  - pose proof (fixed_spelled ["Name"; "Type"; "Summary"] _ _ (fun a => [code (snake (a_name a)); "-"; doc_summary (a_doc a)])
      (fun a => row [code (snake (a_name a)); "-"; doc_summary (a_doc a)]) (t_attrs t) (fun x => eq_refl) (class_rows t)) as S.
    unfold struct_rows, attribute_rows.
    rewrite (range_ext (fun a => "| " ++ md_tag (a_name a) ++ " | - | " ++ doc_summary (a_doc a) ++ " |" ++ line 3 "")
      (fun a => row [code (snake (a_name a)); "-"; doc_summary (a_doc a)] ++ line 3 "")).
    + exact S.
    + intros a. unfold row. cbn [str_join]. rewrite !sapp_assoc. reflexivity.
  - cbn [app]. apply spells_cons; [lia|]. rewrite line_empty, sapp_assoc. apply spells_cons; [lia|]. apply spells_app; [|apply spells_line; lia].
    apply spells_range. intros e _. apply section_spelled; lia.
Qed.

Lemma method_spelled m : spells
   (line 3 ("## " ++ md_display (m_name m) ++ " - " ++ docs_http_method m) ++ line 0 "" ++ line 3 (m_doc m) ++ line 0 "" ++
    line 3 (if_any (m_params m)
      (line 4 "| Name | Type | Direction | Summary |" ++ line 4 "| ---- | ---- | --------- | ------- |" ++
       line 4 (range (fun p => "| " ++ md_tag (p_name p) ++ " | - | - | " ++ doc_summary (p_doc p) ++ " |" ++ line 4 "") (m_params m)))) ++ line 0 "" ++
    line 3 (range (fun p => line 4 ("### " ++ md_display (p_name p)) ++ line 0 "" ++ line 4 (p_doc p) ++ line 3 "") (m_params m)) ++ line 2 "") (method_part m).
Proof.
  unfold method_part. cbn [app]. do 4 (apply spells_cons; [lia|]). apply spells_app.
  - rewrite (range_ext (fun p => "| " ++ md_tag (p_name p) ++ " | - | - | " ++ doc_summary (p_doc p) ++ " |" ++ line 4 "")
      (fun p => row [code (snake (p_name p)); "-"; "-"; doc_summary (p_doc p)] ++ line 4 "")) by (intros e; unfold row; cbn [str_join]; rewrite !sapp_assoc; reflexivity).
    exact (table_spelled 3 4 ["Name"; "Type"; "Direction"; "Summary"] (fun p => [code (snake (p_name p)); "-"; "-"; doc_summary (p_doc p)])
      (fun p => row [code (snake (p_name p)); "-"; "-"; doc_summary (p_doc p)]) (m_params m) ltac:(lia) ltac:(lia) (fun x => eq_refl)).
  - apply spells_cons; [lia|]. rewrite (line_empty 3 (range _ _)), sapp_assoc. apply spells_cons; [lia|]. apply spells_app; [|apply spells_line; lia].
    apply spells_range. intros e _. apply section_spelled; lia.
Qed.

Lemma resource_spelled r : exists p, resource_pieces r = "" :: p /\ spells (resource_text r) p.
Proof.
  eexists. split; [reflexivity|]. unfold resource_text. cbn [app]. do 4 (apply spells_cons; [lia|]). apply spells_app.
  - rewrite (range_ext (fun m => "| " ++ md_display (m_name m) ++ " | " ++ doc_summary (m_doc m) ++ " |" ++ line 3 "")
      (fun m => row [camel (m_name m); doc_summary (m_doc m)] ++ line 3 "")) by (intros e; unfold row; cbn [str_join]; rewrite !sapp_assoc; reflexivity).
    exact (table_spelled 2 3 ["Name"; "Summary"] (fun m => [camel (m_name m); doc_summary (m_doc m)])
      (fun m => row [camel (m_name m); doc_summary (m_doc m)]) (r_methods r) ltac:(lia) ltac:(lia) (fun x => eq_refl)).
  - apply spells_cons; [lia|]. rewrite (line_empty 2 (range _ _)), sapp_assoc. apply spells_cons; [lia|]. apply spells_app; [|apply spells_line; lia].
    apply spells_range. intros m _. apply method_spelled.
Qed.

Lemma links_spelled {A} (display page : A -> string) (link : A -> string) items m :
  (forall s v a, In s (services m) -> In v (versions s) -> In a (items v) -> "[" ++ display a ++ "](" ++ page a ++ ".md)" = link a) ->
  spells (line 2 (index_links display page items m)) (links link items m).
Proof.
  intros H. unfold index_links, links. apply spells_skip; [lia|]. apply spells_range. intros s Is. rewrite line_empty, sapp_assoc. apply spells_cons; [lia|].
  apply spells_app; [|apply spells_line; lia]. apply spells_range. intros v Iv. rewrite line_empty, sapp_assoc. apply spells_cons; [lia|].
  apply spells_app; [|apply spells_line; lia]. apply spells_range. intros a Ia. rewrite (H s v a Is Iv Ia). apply spells_cons; [lia|]. apply spells_line; lia.
Qed.

Lemma cat_page n k : n_words n <> [] -> (k = nType \/ k = nResource) -> md_file (cat [n; k]) = snake n ++ "_" ++ snake k.
Proof.
  intros N K. rewrite file_snake. unfold snake at 1, lower_joined, cat, new_name. cbn [flat_map n_words]. rewrite app_nil_r, map_app.
  rewrite str_join_app; [reflexivity| |].
  - intros E. apply map_eq_nil in E. contradiction.
  - destruct K; subst; discriminate.
Qed.
Lemma type_page_name t : n_words (t_name t) <> [] -> type_page t = snake (t_name t) ++ "_type".
Proof. intros N. unfold type_page. rewrite cat_page; auto. Qed.
Lemma resource_page_name r : n_words (r_name r) <> [] -> resource_page r = snake (r_name r) ++ "_resource".
Proof. intros N. unfold resource_page. rewrite cat_page; auto. Qed.

Lemma in_versions m s v : In s (services m) -> In v (versions s) -> In v (model_versions m).
Proof. intros. apply in_flat_map. eauto. Qed.

Lemma index_spelled m : good_names m -> exists p, index_page m = "" :: p /\ spells (index_text m) p.
Proof.
  intros G. eexists. split; [reflexivity|]. unfold index_text. cbn [app]. do 4 (apply spells_cons; [lia|]). apply spells_app.
  - apply links_spelled. intros s v r Is Iv Ir. rewrite display_camel. destruct (G v (in_versions _ _ _ Is Iv)) as [F _].
    rewrite resource_page_name by (eapply Forall_forall in F; [apply F|exact Ir]). unfold link. now rewrite !sapp_assoc.
  - cbn [app]. do 3 (apply spells_cons; [lia|]). apply spells_app; [|apply spells_line; lia].
    apply links_spelled. intros s v r Is Iv Ir. rewrite display_camel. destruct (G v (in_versions _ _ _ Is Iv)) as [_ F].
    rewrite type_page_name by (eapply Forall_forall in F; [apply F|exact Ir]). unfold link. now rewrite !sapp_assoc.
Qed.

(** * All the pages *)

Definition same_page (p : string * string) (q : string * list string) : Prop := fst p = fst q /\ exists l, snd q = "" :: l /\ spells (snd p) l.

Lemma type_spelled t : has_page t = true -> exists p, type_pieces t = "" :: p /\ spells (type_text t) p.
Proof.
  unfold has_page, type_pieces, type_text, is_enum, is_struct. destruct (t_kind t); try discriminate; intros _; cbn [kind_eqb orb]; cbv iota;
  auto using enum_spelled, struct_spelled.
Qed.
Lemma page_kinds t : is_enum t || is_struct t = has_page t.
Proof. unfold has_page, is_enum, is_struct. now destruct (t_kind t). Qed.

Lemma forall2_maps {A B C} (R : B -> C -> Prop) (f : A -> B) (g : A -> C) l : (forall x, In x l -> R (f x) (g x)) -> Forall2 R (map f l) (map g l).
Proof. induction l as [|x l IH]; intros H; cbn [map]; constructor; [apply H; now left|apply IH; intros y I; apply H; now right]. Qed.
Lemma forall2_flat {A B C} (R : B -> C -> Prop) (f : A -> list B) (g : A -> list C) l : (forall x, In x l -> Forall2 R (f x) (g x)) -> Forall2 R (flat_map f l) (flat_map g l).
Proof. induction l as [|x l IH]; intros H; cbn [flat_map]; [constructor|]. apply Forall2_app; [apply H; now left|apply IH; intros y I; apply H; now right]. Qed.

Lemma flat_flat {A B C} (f : B -> list C) (g : A -> list B) l : flat_map f (flat_map g l) = flat_map (fun x => flat_map f (g x)) l.
Proof. induction l as [|x l IH]; [reflexivity|]. cbn [flat_map]. now rewrite flat_map_app, IH. Qed.

Lemma pages_spelled m : good_names m -> Forall2 same_page (pages m) (model_pages m).
Proof.
  intros G. unfold pages, model_pages. constructor; [split; [reflexivity|now apply index_spelled]|].
  unfold model_versions. rewrite <- (flat_flat pages_of_version versions). apply forall2_flat. intros v Iv. destruct (G v Iv) as [FR FT]. rewrite Forall_forall in FR, FT.
  unfold pages_of_version, version_pages. apply Forall2_app.
  - apply forall2_maps. intros r Ir. split; [apply resource_page_name, FR, Ir|apply resource_spelled].
  - rewrite (filter_ext _ _ page_kinds). apply forall2_maps. intros t It. apply filter_In in It as [It P]. split; [apply type_page_name, FT, It|now apply type_spelled].
Qed.
