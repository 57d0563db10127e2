(** Proofs about the files of the generated documentation. *)
From Coq Require Import Ascii String Bool Arith ZArith NArith Lia List.
From Verif Require Import GoStrings GoStringsProofs GoMap GoMapProofs NamesModel NamesSpec NamesProofs ConceptsModel BindingModel ReporterModel GoNamesModel GoNamesSpec GoNamesProofs
  TextModel TextSpec TextProofs TextProofs2 TextProofs3 TextProofs4 BufferModel BufferSpec BufferProofs BufferProofs3 DeclsModel DeclsProofs2 DocsModel DocsSpec DocsProofs.
Import ListNotations.
Local Open Scope string_scope.

(** * Writing *)

Lemma page_written sys output page text reports fs reports' fs' : write_page sys output page text reports fs = (None, reports', fs') ->
  errors_in reports 0 /\ errors_in reports' 0 /\ fs' = mset (page_path output page) (remove_tabs (text ++ newline)) fs.
Proof.
  unfold write_page, write_md, new_md_buffer. cbv zeta. cbn [mb_file mb_code]. rewrite !count_info. fold (page_path output page). unfold errors_found.
  destruct (Nat.ltb 0 (error_count reports)) eqn:E; [discriminate|]. cbv iota. cbn [mb_file mb_code].
  destruct (sys_mkdir _ _); [discriminate|]. destruct (sys_open _ _); [discriminate|]. intros [= <- <-].
  apply Nat.ltb_ge in E. assert (Z : error_count reports = 0) by lia. split; [now apply errors_zero|]. split; [|reflexivity]. apply errors_zero. now rewrite count_info.
Qed.
Lemma page_succeeds sys output page text reports fs : errors_in reports 0 -> sys_mkdir sys (path_dir (page_path output page)) = None -> sys_open sys (page_path output page) = None ->
  exists reports' fs', write_page sys output page text reports fs = (None, reports', fs').
Proof.
  intros E M O. apply errors_zero in E. unfold write_page, write_md, new_md_buffer. cbv zeta. rewrite !count_info, E. change (Nat.ltb 0 0) with false. cbv iota. cbn [mb_file mb_code].
  fold (page_path output page). rewrite M, O. cbn. eauto.
Qed.
Lemma page_fails sys output page text reports fs : errors_in reports 0 ->
  sys_mkdir sys (path_dir (page_path output page)) <> None \/ sys_open sys (page_path output page) <> None ->
  exists e reports', write_page sys output page text reports fs = (Some e, reports', fs).
Proof.
  intros E F. apply errors_zero in E. unfold write_page, write_md, new_md_buffer. cbv zeta. rewrite !count_info, E. change (Nat.ltb 0 0) with false. cbv iota. cbn [mb_file mb_code].
  fold (page_path output page). change (errors_found 0) with (@None string). cbv iota. destruct (sys_mkdir sys _); [eauto|]. destruct (sys_open sys _); [eauto|]. now destruct F.
Qed.

Lemma pages_written sys output l : forall reports fs reports' fs', write_pages sys output l reports fs = (None, reports', fs') ->
  (l <> [] -> errors_in reports 0) /\
  (forall p, (forall page text, In (page, text) l -> p <> page_path output page) -> mget p fs' = mget p fs) /\
  (forall before page text after, l = (before ++ (page, text) :: after)%list -> (forall page' text', In (page', text') after -> page_path output page' <> page_path output page) ->
     mget (page_path output page) fs' = Some (remove_tabs (text ++ newline))).
Proof.
  induction l as [|[n x] l IH]; intros reports fs reports' fs' W; cbn [write_pages] in W.
  - injection W as <- <-. split; [congruence|]. split; [auto|]. intros [|] *; discriminate.
  - destruct (write_page sys output n x reports fs) as [[[e|] r1] f1] eqn:P; [discriminate|]. apply page_written in P as (E & E1 & ->).
    destruct (IH _ _ _ _ W) as (_ & FR & HIT). split; [auto|]. split.
    + intros p H. rewrite FR by (intros; apply (H page text); now right). apply mget_mset_other. apply (H n x). now left.
    + intros [|b before] page text after L H; cbn [app] in L.
      * injection L as <- <- <-. rewrite FR by (intros page' text' I; specialize (H _ _ I); congruence). apply mget_mset_same.
      * apply (HIT before page text after); [congruence|exact H].
Qed.

Lemma pages_succeed sys output l : (forall page text, In (page, text) l -> sys_mkdir sys (path_dir (page_path output page)) = None /\ sys_open sys (page_path output page) = None) ->
  forall reports fs, errors_in reports 0 -> exists reports' fs', write_pages sys output l reports fs = (None, reports', fs').
Proof.
  induction l as [|[n x] l IH]; intros H reports fs E; cbn [write_pages]; [eauto|].
  destruct (H n x (or_introl eq_refl)) as [M O]. destruct (page_succeeds sys output n x reports fs E M O) as (r1 & f1 & P). rewrite P.
  apply page_written in P as (_ & E1 & _). apply IH; [|assumption]. intros page text I. apply (H page text). now right.
Qed.
Lemma pages_fail sys output l : (exists page text, In (page, text) l /\ (sys_mkdir sys (path_dir (page_path output page)) <> None \/ sys_open sys (page_path output page) <> None)) ->
  forall reports fs, errors_in reports 0 -> exists e reports' fs', write_pages sys output l reports fs = (Some e, reports', fs').
Proof.
  induction l as [|[n x] l IH]; intros (page & text & I & F) reports fs E; [destruct I|]. cbn [write_pages].
  destruct (write_page sys output n x reports fs) as [[[e|] r1] f1] eqn:P; [eauto|]. destruct I as [[= -> ->]|I].
  - destruct (page_fails sys output page text reports fs E F) as (e & r & Q). congruence.
  - apply page_written in P as (_ & E1 & _). apply IH; eauto.
Qed.

(** * The pages of a model *)

Lemma forall2_names l r : Forall2 same_page l r -> map fst l = map fst r.
Proof. induction 1 as [|p q l r [E _] F IH]; [reflexivity|]. cbn [map]. congruence. Qed.
Lemma forall2_at {A B} (R : A -> B -> Prop) l before q after : Forall2 R l (before ++ q :: after) -> exists b p a, l = (b ++ p :: a)%list /\ R p q /\ Forall2 R a after.
Proof. intros F. apply Forall2_app_inv_r in F as (b & a & _ & F & ->). inversion F; subst. eauto 8. Qed.
Lemma in_names {A} (l : list (string * A)) n x : In (n, x) l -> In n (map fst l).
Proof. intros I. exact (in_map fst _ _ I). Qed.
Lemma names_in {A} (l : list (string * A)) n : In n (map fst l) -> exists x, In (n, x) l.
Proof. intros I. apply in_map_iff in I as ([n' x] & <- & I). eauto. Qed.

Lemma docs_written sys output m reports fs reports' fs' : good_names m -> generate_docs sys output m reports fs = (None, reports', fs') ->
  errors_in reports 0 /\
  (forall p, (forall page pieces, In (page, pieces) (model_pages m) -> p <> page_path output page) -> mget p fs' = mget p fs) /\
  (forall before page pieces after, model_pages m = (before ++ (page, pieces) :: after)%list ->
     (forall page' pieces', In (page', pieces') after -> page_path output page' <> page_path output page) -> Forall fits pieces ->
     exists content, mget (page_path output page) fs' = Some content /\ shows pieces content).
Proof.
  intros G W. pose proof (pages_spelled m G) as F. pose proof (forall2_names _ _ F) as N. destruct (pages_written _ _ _ _ _ _ _ W) as (E & FR & HIT).
  split; [apply E; discriminate|]. split.
  - intros p H. apply FR. intros page text I. apply in_names in I. rewrite N in I. apply names_in in I as (pieces & I). apply (H page pieces I).
  - intros before page pieces after M H S. rewrite M in F. apply forall2_at in F as (b & [page1 text] & a & L & [E1 (q & E2 & P)] & F2). cbn [fst snd] in *. subst page1 pieces.
    inversion S; subst. exists (remove_tabs (text ++ newline)). split; [|now apply spelled_shown]. apply (HIT b page text a L).
    intros page' text' I. apply in_names in I. rewrite (forall2_names _ _ F2) in I. apply names_in in I as (x & I). apply (H page' x I).
Qed.

Lemma docs_succeed sys output m reports fs : good_names m -> errors_in reports 0 ->
  (exists reports' fs', generate_docs sys output m reports fs = (None, reports', fs')) <->
  (forall page pieces, In (page, pieces) (model_pages m) -> sys_mkdir sys (path_dir (page_path output page)) = None /\ sys_open sys (page_path output page) = None).
Proof.
  intros G E. pose proof (forall2_names _ _ (pages_spelled m G)) as N. split.
  - intros (r' & f' & W) page pieces I. destruct (sys_mkdir sys (path_dir (page_path output page))) as [e|] eqn:M; [|destruct (sys_open sys (page_path output page)) as [e|] eqn:O; [|auto]];
    exfalso; apply in_names in I; rewrite <- N in I; apply names_in in I as (x & I);
    destruct (pages_fail sys output (pages m)) with (reports := reports) (fs := fs) as (e1 & r1 & f1 & Q); auto; try (exists page, x; split; [exact I|]; rewrite ?M, ?O; (left; discriminate) || (right; discriminate));
    unfold generate_docs in W; congruence.
  - intros H. apply pages_succeed; [|assumption]. intros page text I. apply in_names in I. rewrite N in I. apply names_in in I as (x & I). apply (H page x I).
Qed.
Lemma docs_errors sys output m reports fs : ~ errors_in reports 0 -> exists e reports', generate_docs sys output m reports fs = (Some e, reports', fs).
Proof.
  intros E. unfold generate_docs, pages. cbn [write_pages]. unfold write_page, write_md. cbv zeta. rewrite count_info. unfold errors_found.
  destruct (Nat.ltb 0 (error_count reports)) eqn:L; [cbn; eauto|]. apply Nat.ltb_ge in L. exfalso. apply E, errors_zero. lia.
Qed.
