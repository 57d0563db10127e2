(** Proofs about the names of the files of the generated documentation, and about the links of the index. *)
From Coq Require Import Ascii String Bool Arith ZArith NArith Lia Permutation List.
From Verif Require Import GoStrings GoStringsProofs GoMap GoMapProofs NamesModel NamesSpec NamesProofs ConceptsModel BindingModel BindingSpec BindingProofs ReporterModel GoNamesModel GoNamesSpec GoNamesProofs
  TextModel TextSpec TextProofs TextProofs2 TextProofs3 TextProofs4 BufferModel BufferSpec BufferProofs BufferProofs3 DeclsModel DeclsSpec DeclsProofs DeclsProofs2 DeclsProofs3
  DocsModel DocsSpec DocsProofs DocsProofs2.
Import ListNotations.
Local Open Scope string_scope.

(** * Paths *)

Lemma base_joined base x : plain_segment x -> path_base (path_join [base; x]) = x.
Proof.
  intros X. destruct (string_dec base "") as [->|B].
  - unfold path_join. cbn [filter]. change (negb (String.eqb "" "")) with false. cbv iota. rewrite (negb_nonempty x) by apply X.
    change (str_join "/" [x]) with x. unfold path_clean. cbv zeta. rewrite (split_plain x (plain_no_slash x X)).
    assert (P : has_prefix x "/" = false).
    { pose proof (plain_no_slash x X) as H. destruct x as [|c x]; [reflexivity|]. unfold no_char in H. cbn [str_all] in H. apply andb_true_iff in H as [H _].
      apply negb_true_iff in H. cbn [has_prefix]. rewrite Ascii.eqb_sym in H. now rewrite H. }
    rewrite P, GoNamesProofs.clean_plain by (constructor; [assumption|constructor]). cbn [rev app str_join]. destruct (String.eqb_spec x ""); [destruct X; contradiction|]. now apply base_single.
  - destruct (join_base base [x] B ltac:(discriminate) ltac:(constructor; [exact X|constructor])) as (r & l & E & R & _). change (str_join "/" [x]) with x in E. rewrite E.
    destruct l as [|y l].
    + cbn [app str_join]. destruct R as [-> | ->]; [now apply base_single|]. exact (base_of_last "" x X).
    + rewrite join_app_plain by discriminate. change (str_join "/" [x]) with x. rewrite <- sapp_assoc. now apply base_of_last.
Qed.

Lemma page_plain n : free_of "/" n -> plain_segment (n ++ ".md").
Proof.
  intros F. assert (L : forall s, (String.length s < 3)%nat -> n ++ ".md" <> s).
  { intros s L E. apply (f_equal String.length) in E. rewrite sapp_length in E. cbn in E. lia. }
  split; [apply L; cbn; lia|]. split; [apply L; cbn; lia|]. split; [apply L; cbn; lia|].
  unfold free_of in *. intros I. clear L. induction n as [|c n IH].
  - cbn in I. repeat destruct I as [I|I]; try discriminate; exact I.
  - cbn [append list_ascii_of_string] in *. destruct I as [->|I]; [apply F; now left|]. apply IH; [|exact I]. intros J. apply F. now right.
Qed.
Lemma page_path_inj output a b : free_of "/" a -> free_of "/" b -> page_path output a = page_path output b -> a = b.
Proof.
  intros A B E. apply (f_equal path_base) in E. unfold page_path in E. rewrite !base_joined in E by now apply page_plain. now apply sapp_inv_tail in E.
Qed.

Lemma free_app c a b : free_of c a -> free_of c b -> free_of c (a ++ b).
Proof.
  unfold free_of. intros A B I. induction a as [|d a IH]; [contradiction|]. cbn [append list_ascii_of_string] in *. destruct I as [->|I]; [apply A; now left|].
  apply IH; [|exact I]. intros J. apply A. now right.
Qed.
Lemma names_free m n : good_names m -> In n (map fst (model_pages m)) -> free_of "/" n.
Proof.
  intros G I. unfold model_pages in I. cbn [map] in I. destruct I as [<-|I]; [apply free_of_no_char; reflexivity|].
  apply in_map_iff in I as ([n' x] & <- & I). apply in_flat_map in I as (v & Iv & I). destruct (G v Iv) as [FR FT]. rewrite Forall_forall in FR, FT.
  unfold version_pages in I. apply in_app_or in I as [I|I]; apply in_map_iff in I as (a & [= <- <-] & I); cbn [fst].
  - apply free_app; [apply FR, I|apply free_of_no_char; reflexivity].
  - apply filter_In in I as [I _]. apply free_app; [apply FT, I|apply free_of_no_char; reflexivity].
Qed.

Lemma names_perm l : Permutation (map fst (flat_map version_pages l))
  (map (fun x => x ++ "_resource") (flat_map (fun v => map (fun r => snake (r_name r)) (resources v)) l) ++
   map (fun x => x ++ "_type") (flat_map (fun v => map (fun t => snake (t_name t)) (filter has_page (types v))) l)).
Proof.
  induction l as [|v l IH]; [constructor|]. cbn [flat_map]. rewrite !map_app. unfold version_pages at 1. rewrite map_app, !map_map. cbn [fst].
  rewrite <- !app_assoc. apply Permutation_app_head. rewrite app_assoc. rewrite (Permutation_app_comm (map _ (flat_map _ l)) (map _ (filter _ _))).
  rewrite <- app_assoc. apply Permutation_app_head. exact IH.
Qed.

Lemma page_class_group s n l : In (s, n) [("_resource", 1); ("_type", 2)] -> Forall (fun x => ending_class ["_resource"; "_type"] x = n) (map (fun x => x ++ s) l).
Proof.
  intros Hs. apply Forall_forall. intros x Hx. apply in_map_iff in Hx. destruct Hx as (y & <- & _). unfold ending_class, first_of, DeclsProofs2.has_suffix.
  rewrite !str_rev_app. destruct Hs as [E|[E|[]]]; injection E as <- <-; cbn; rewrite ?prefix_nil; reflexivity.
Qed.

Lemma page_names m : NoDup (map fst (model_pages m)) <-> NoDup (resource_names m) /\ NoDup (documented_names m).
Proof.
  unfold model_pages. cbn [map fst].
  assert (P : Permutation ("index" :: map fst (flat_map version_pages (model_versions m)))
    (concat [["index"]; map (fun x => x ++ "_resource") (resource_names m); map (fun x => x ++ "_type") (documented_names m)])).
  { cbn [concat app]. rewrite app_nil_r. constructor. apply names_perm. }
  split.
  - intros N. apply (Permutation_NoDup P) in N. split; [apply (nodup_append_iff "_resource")|apply (nodup_append_iff "_type")]; apply (nodup_concat_in _ _ N); cbn; tauto.
  - intros [N1 N2]. apply (Permutation_NoDup (Permutation_sym P)). apply (nodup_groups (ending_class ["_resource"; "_type"]) _ 0). intros i g Hi.
    destruct i as [|[|[|i]]]; [| | |destruct i; discriminate Hi]; cbn [nth_error] in Hi; injection Hi as <-.
    + split; [apply nodupb_spec; reflexivity|]. repeat constructor.
    + split; [exact (nodup_append _ _ N1)|]. apply (page_class_group "_resource" 1). cbn. tauto.
    + split; [exact (nodup_append _ _ N2)|]. apply (page_class_group "_type" 2). cbn. tauto.
Qed.

Lemma all_pages sys output m reports fs reports' fs' : good_names m -> NoDup (resource_names m) -> NoDup (documented_names m) ->
  generate_docs sys output m reports fs = (None, reports', fs') ->
  forall page pieces, In (page, pieces) (model_pages m) -> Forall fits pieces -> exists content, mget (page_path output page) fs' = Some content /\ shows pieces content.
Proof.
  intros G N1 N2 W page pieces I S. pose proof (proj2 (page_names m) (conj N1 N2)) as N. destruct (docs_written _ _ _ _ _ _ _ G W) as (_ & _ & H).
  apply in_split in I as (before & after & L). apply (H before page pieces after L); [|exact S]. intros page' pieces' I E.
  assert (F : forall n, In n (map fst (model_pages m)) -> free_of "/" n) by (intros n; now apply names_free).
  apply page_path_inj in E.
  - subst page'. rewrite L, map_app in N. cbn [map fst] in N. apply NoDup_remove_2 in N. apply N, in_or_app. right. exact (in_names _ _ _ I).
  - apply F. rewrite L, map_app. apply in_or_app. right. right. exact (in_names _ _ _ I).
  - apply F. rewrite L, map_app. apply in_or_app. right. now left.
Qed.

(** * Links *)

Lemma last_page output (l : list (string * list string)) p : In p (map (fun q => page_path output (fst q)) l) ->
  exists before page pieces after, l = (before ++ (page, pieces) :: after)%list /\ page_path output page = p /\
    forall n x, In (n, x) after -> page_path output n <> page_path output page.
Proof.
  induction l as [|[n x] l IH]; intros I; [destruct I|]. destruct (in_dec string_dec p (map (fun q => page_path output (fst q)) l)) as [J|J].
  - destruct (IH J) as (b & q & y & a & -> & R). exists ((n, x) :: b), q, y, a. auto.
  - destruct I as [E|I]; [|contradiction]. cbn [fst] in E. exists [], n, x, l. split; [reflexivity|]. split; [exact E|]. intros n' x' I E'. apply J. rewrite <- E, <- E'.
    exact (in_map (fun q => page_path output (fst q)) l (n', x') I).
Qed.

Lemma page_exists sys output m reports fs reports' fs' page : good_names m -> generate_docs sys output m reports fs = (None, reports', fs') ->
  In page (map fst (model_pages m)) -> exists content, mget (page_path output page) fs' = Some content.
Proof.
  intros G W I. pose proof (pages_written _ _ _ _ _ _ _ W) as (_ & _ & H). rewrite <- (forall2_names _ _ (pages_spelled m G)) in I.
  assert (J : In (page_path output page) (map (fun q => page_path output (fst q)) (map (fun q : string * string => (fst q, @nil string)) (pages m)))).
  { rewrite map_map. cbn [fst]. apply in_map_iff in I as ([n x] & <- & I). exact (in_map (fun q => page_path output (fst q)) _ (n, x) I). }
  apply last_page in J as (b & n & x & a & L & E & F). rewrite <- E.
  assert (Q : exists b' t a', pages m = (b' ++ (n, t) :: a')%list /\ a = map (fun q : string * string => (fst q, @nil string)) a').
  { clear -L. revert b L. induction (pages m) as [|[k t] l IH]; intros [|y b] L; cbn [map app fst] in L; try discriminate.
    - injection L as <- <- <-. exists [], t, l. auto.
    - injection L as <- L. destruct (IH b L) as (b' & t' & a' & -> & ->). exists ((k, t) :: b'), t', a'. auto. }
  destruct Q as (b' & t & a' & L' & ->). eexists. apply (H b' n t a' L'). intros n' t' I'. apply (F n' []).
  exact (in_map (fun q : string * string => (fst q, @nil string)) a' (n', t') I').
Qed.

Lemma links_live sys output m reports fs reports' fs' v : good_names m -> generate_docs sys output m reports fs = (None, reports', fs') -> In v (model_versions m) ->
  (forall r, In r (resources v) -> exists content, mget (page_path output (snake (r_name r) ++ "_resource")) fs' = Some content) /\
  (forall t, In t (types v) -> has_page t = true -> exists content, mget (page_path output (snake (t_name t) ++ "_type")) fs' = Some content).
Proof.
  intros G W Iv.
  assert (Q : forall n x, In (n, x) (version_pages v) -> exists content, mget (page_path output n) fs' = Some content).
  { intros n x I. apply (page_exists _ _ _ _ _ _ _ n G W). apply (in_names _ n x). right. apply in_flat_map. eauto. }
  split.
  - intros r I. apply (Q _ (resource_pieces r)). apply in_or_app. left. apply in_map_iff. eauto.
  - intros t I P. apply (Q _ (type_pieces t)). apply in_or_app. right. apply in_map_iff. exists t. split; [reflexivity|]. apply filter_In. auto.
Qed.

Lemma ending_type x n : In (x ++ "_type") (map (fun y => y ++ "_resource") n) -> False.
Proof.
  intros I. pose proof (page_class_group "_resource" 1 n ltac:(cbn; tauto)) as F. rewrite Forall_forall in F. apply F in I.
  pose proof (page_class_group "_type" 2 [x] ltac:(cbn; tauto)) as F2. inversion F2; subst. congruence.
Qed.

Lemma links_dead sys output m reports fs reports' fs' n : good_names m -> generate_docs sys output m reports fs = (None, reports', fs') ->
  free_of "/" n -> ~ In n (documented_names m) -> mget (page_path output (n ++ "_type")) fs' = mget (page_path output (n ++ "_type")) fs.
Proof.
  intros G W F N. destruct (docs_written _ _ _ _ _ _ _ G W) as (_ & H & _). apply H. intros page pieces I E.
  assert (FP : free_of "/" page) by (apply (names_free m); [exact G|exact (in_names _ _ _ I)]).
  apply page_path_inj in E; [|apply free_app; [exact F|apply free_of_no_char; reflexivity]|exact FP]. subst page. apply in_names in I. unfold model_pages in I. cbn [map fst] in I.
  destruct I as [I|I].
  - assert (C : ending_class ["_resource"; "_type"] "index" = 2); [|discriminate C]. rewrite I. pose proof (page_class_group "_type" 2 [n] ltac:(cbn; tauto)) as F2. now inversion F2.
  - apply (Permutation_in _ (names_perm (model_versions m))) in I. apply in_app_or in I as [I|I]; [exact (ending_type _ _ I)|].
    apply in_map_iff in I as (y & E & I). apply sapp_inv_tail in E. subst y. exact (N I).
Qed.

(** * Tables and names *)

Lemma summary_line doc : is_line (doc_summary doc) <-> occurs "." doc \/ is_line doc.
Proof.
  unfold doc_summary. destruct (String.eqb_spec doc "") as [->|_].
  - split; [right; apply is_line_nil|intros _; apply is_line_nil].
  - pose proof (index_split (fun c => Ascii.eqb c ".") doc) as S. destruct (index_func _ doc) as [i|].
    + split; [|intros _]. 
      * left. destruct S as (c & b & E & _ & C). exists (str_take i doc), b. apply Ascii.eqb_eq in C. now subst.
      * apply no_char_occurs. generalize (str_take (i + 1) doc). intros s. induction s as [|c s IH]; [reflexivity|]. cbn [remove_char]. destruct (Ascii.eqb c lf) eqn:E; [exact IH|].
        unfold no_char. cbn [str_all]. rewrite E. exact IH.
    + split; [auto|]. intros [O|L]; [|exact L]. exfalso. revert O. apply not_occurs_all. exact S.
Qed.

Lemma row_line cells : is_line (row cells) <-> Forall is_line cells.
Proof.
  unfold row, is_line. rewrite !occurs_app. assert (N : forall s, no_char lf s = true -> ~ occurs lf s) by (intros s; apply no_char_occurs). split.
  - intros H. assert (H' : ~ occurs lf (str_join " | " cells)) by tauto. clear H. induction cells as [|x cells IH]; constructor.
    + intros O. apply H'. destruct cells as [|y cells]; [exact O|]. rewrite str_join_cons by discriminate. rewrite !occurs_app. tauto.
    + apply IH. intros O. apply H'. destruct cells as [|y cells]; [destruct (occurs_nil _ O)|]. rewrite str_join_cons by discriminate. rewrite !occurs_app. tauto.
  - intros F [O|[O|O]]; [exact (N "| " eq_refl O)| |exact (N " |" eq_refl O)]. induction F as [|x cells X F IH]; [exact (occurs_nil _ O)|].
    destruct cells as [|y cells]; [exact (X O)|]. rewrite str_join_cons in O by discriminate. rewrite !occurs_app in O. destruct O as [O|[O|O]]; [exact (X O)|exact (N " | " eq_refl O)|exact (IH O)].
Qed.

(** Names as they are documented and as they are used in the JSON documents. *)
Lemma documented_json a : snake (a_name a) = attribute_name a <-> json_name (a_annots a) = "" \/ json_name (a_annots a) = snake (a_name a).
Proof.
  unfold attribute_name, name_or. destruct (String.eqb_spec (json_name (a_annots a)) "") as [E|E]; [tauto|]. split; [auto|]. intros [H|H]; [contradiction|auto].
Qed.

(** * Summary *)

Lemma docs_pages sys output m reports fs reports' fs' : good_names m -> generate_docs sys output m reports fs = (None, reports', fs') ->
  (forall p, (forall page pieces, In (page, pieces) (model_pages m) -> p <> page_path output page) -> mget p fs' = mget p fs) /\
  (forall before page pieces after, model_pages m = (before ++ (page, pieces) :: after)%list -> ~ In page (map fst after) -> Forall fits pieces ->
     exists content, mget (page_path output page) fs' = Some content /\ shows pieces content).
Proof.
  intros G W. destruct (docs_written _ _ _ _ _ _ _ G W) as (_ & FR & H). split; [exact FR|].
  intros before page pieces after L N S. apply (H before page pieces after L); [|exact S]. intros page' pieces' I E.
  assert (F : forall n, In n (map fst (model_pages m)) -> free_of "/" n) by (intros n; now apply names_free). apply page_path_inj in E.
  - subst page'. apply N. exact (in_names _ _ _ I).
  - apply F. rewrite L, map_app. apply in_or_app. right. right. exact (in_names _ _ _ I).
  - apply F. rewrite L, map_app. apply in_or_app. right. now left.
Qed.

Lemma shared_name (f : version -> list string) x l : 2 <= length l -> (forall v, In v l -> In x (f v)) -> ~ NoDup (flat_map f l).
Proof.
  intros L H. destruct l as [|a [|b l]]; cbn in L; try lia. cbn [flat_map]. intros N. apply nodup_app in N as (_ & _ & N). apply (N x); [apply H; now left|].
  apply in_or_app. left. apply H. right. now left.
Qed.

Lemma is_line_char_true s : no_char lf s = true -> is_line s.
Proof. apply is_line_char. Qed.
Lemma is_line_char_false s : no_char lf s = false -> ~ is_line s.
Proof. intros H L. apply is_line_char in L. congruence. Qed.

Lemma documented_names_json a s :
  (not_renamed (a_annots a) "json" -> snake (a_name a) = attribute_name a) /\ (renamed (a_annots a) "json" s -> snake (a_name a) = attribute_name a <-> s = snake (a_name a)).
Proof.
  split.
  - intros H. apply documented_json. left. exact (text_not_renamed _ _ H).
  - intros H. apply text_renamed in H as [E H]. rewrite documented_json. unfold json_name. rewrite E. split; [intros [K | K]; congruence|auto].
Qed.

Lemma fixed_documented t : t_kind t = ClassType -> (incl fixed_rows (struct_rows t) <-> t_attrs t <> []).
Proof.
  intros K. unfold struct_rows. rewrite K. destruct (t_attrs t) as [|a l]; split; intros H.
  - exfalso. exact (H _ (or_introl eq_refl)).
  - congruence.
  - discriminate.
  - intros x I. apply in_or_app. now left.
Qed.
