(** Proofs about the rules of the parser: completeness. *)
From Coq Require Import Ascii String Bool Arith ZArith NArith Lia List.
From Verif Require Import GoStrings TextModel TextSpec ReaderModel SyntaxModel SyntaxSpec SyntaxProofs SyntaxProofs2 SyntaxProofs3.
Import ListNotations.
Local Open Scope string_scope.

Notation lpar := (token_eqb (TPunct "(")).
Notation equals := (token_eqb (TPunct "=")).
Definition after_annotations (r : list placed) : Prop := not_next is_at r /\ not_next lpar r.

Lemma literal_complete : complete p_literal g_literal any.
Proof.
  intros x pre r H _. destruct x as [[]|s|s u]; cbn [g_literal] in H; open_seq; try reflexivity.
  cbn. do 2 f_equal. destruct u as [v|].
  - apply unquote_iff. now apply H.
  - destruct (unquote s) as [v|] eqn:E; [|reflexivity]. apply unquote_iff, H in E. discriminate.
Qed.
Ltac step_with lem := erewrite bind_step; [|apply lem].
Ltac steps :=
  repeat first
  [ erewrite bind_step; [|apply expect_step]
  | erewrite bind_step; [|apply identifier_step]
  | erewrite bind_step; [|apply optional_yes]
  | erewrite (bind_step (ret _)); [|reflexivity]
  | erewrite bind_step; [|apply optional_no; reflexivity]
  | progress cbn beta iota ].

Lemma setting_complete : complete p_annotation_parameter g_setting any.
Proof.
  intros (n, v) pre r H _. unfold g_setting in H. cbn [fst snd] in H. open_seq. unfold p_annotation_parameter. steps.
  rewrite (bind_step _ _ _ _ _ (literal_complete _ _ r H1 I)). reflexivity.
Qed.
Lemma annotation_complete : complete p_annotation g_annotation (not_next lpar).
Proof.
  intros [n ps] pre r H N. unfold g_annotation in H. cbn [ad_name ad_params] in H. open_all; unfold p_annotation; steps.
  - rewrite (bind_step _ _ _ _ _ (optional_no _ _ N)). reflexivity.
  - cbn [app]. rewrite <- app_assoc. cbn [app]. steps.
    rewrite (bind_step _ _ _ _ _ (many_complete _ _ _ _ setting_complete setting_leads (fun _ _ => I) _ _ _ ltac:(eassumption) (conj (eq_refl : not_next _ ((_, TPunct ")") :: _)) I))).
    steps. reflexivity.
Qed.
Lemma annotations_complete : complete p_annotations g_annotations after_annotations.
Proof.
  intros xs pre r H O. unfold p_annotations. apply (many_complete is_at p_annotation g_annotation (not_next lpar)); try assumption.
  - apply annotation_complete.
  - apply annotation_leads.
  - intros [|(n, t) l]; cbn; [discriminate|]. unfold is_at. intros E. apply token_eqb_eq in E as ->. reflexivity.
Qed.
Lemma reference_complete : complete p_reference g_reference any.
Proof. intros [n|e|i e] pre r H _; cbn [g_reference] in H; open_seq; unfold p_reference; cbn [next_is is_ident app]; steps; reflexivity. Qed.

Lemma block_complete {A} first (p : parser A) f okp : complete p f okp -> leads f first -> (forall r, next_is first r = true -> okp r) ->
  (forall n r, not_next first ((n, TPunct "}") :: r) /\ okp ((n, TPunct "}") :: r)) -> complete (p_block first p) (fun l => braces (each f l)) any.
Proof.
  intros C L O E x pre r H _. unfold braces in H. open_seq. unfold p_block. rewrite <- app_assoc. cbn [app]. steps.
  match goal with H : each f x ?l |- context [(?l ++ (?n, _) :: r)%list] => rewrite (bind_step _ _ _ _ _ (many_complete _ _ _ _ C L O _ _ _ H (E n r))) end.
  steps. reflexivity.
Qed.

Ltac start_at H :=
  let E := fresh "E" in let t := fresh "t" in let q := fresh "q" in destruct H as (H & t & q & E);
  match type of E with ?pre = (?n, _) :: _ =>
  match goal with |- context [start_line (pre ++ ?r)%list] =>
    let K := fresh "K" in assert (K : start_line (pre ++ r)%list = n) by (rewrite E; reflexivity); rewrite K; clear K E t q end end.

Ltac annots :=
  repeat rewrite <- app_assoc; cbn [app];
  match goal with H : g_annotations ?a ?l |- context [(?l ++ ?m)%list] =>
    rewrite (bind_step _ _ _ _ _ (annotations_complete _ _ m H (conj eq_refl eq_refl))) end; steps.

Lemma value_complete : complete p_value g_value any.
Proof.
  intros [n a s] pre r H _. unfold g_value in H. cbn [sv_line sv_annots sv_name] in H. unfold p_value. start_at H.
  open_all; annots; reflexivity.
Qed.
Lemma member_complete : complete p_member g_member any.
Proof.
  intros [n a k s t] pre r H _. unfold g_member in H. cbn [sm_line sm_annots sm_name sm_link sm_ref] in H. unfold p_member. start_at H.
  destruct k; open_all; annots;
  (match goal with H : g_reference _ ?l |- _ => rewrite (bind_step _ _ _ _ _ (reference_complete _ _ r H I)) end); reflexivity.
Qed.
Lemma direction_complete : complete p_direction g_direction any.
Proof. intros [] pre r H _; cbn in H; open_seq; reflexivity. Qed.
Lemma param_complete : complete p_param g_param (not_next equals).
Proof.
  intros [n a d s t v] pre r H N. unfold g_param in H. cbn [sp_line sp_annots sp_directions sp_name sp_ref sp_default] in H. unfold p_param. start_at H.
  assert (T : forall m r' lm l, match v with Some v => mark "=" >> g_literal v | None => nothing end l -> each g_direction d m -> g_reference t r' ->
    (let* d := many (is_keyword ["in"; "out"]) p_direction in
     let* n0 := p_identifier in
     let* r := p_reference in
     let* b := optional (TPunct "=") in
     let* v := (if b : bool then (let* v := p_literal in ret (Some v)) else ret None) in
     ret (MkSParam n a d n0 r v)) (m ++ (lm, TIdent s) :: r' ++ l ++ r)%list = POk (MkSParam n a d s t v) r).
  { intros m r' lm l V D R.
    rewrite (bind_step _ _ _ _ _ (many_complete _ _ _ _ direction_complete direction_leads (fun _ _ => I) _ _ _ D (conj (eq_refl : not_next _ ((_, TIdent s) :: _)) I))).
    steps. rewrite (bind_step _ _ _ _ _ (reference_complete _ _ _ R I)). destruct v as [v|].
    - open_seq. steps.
      match goal with |- context [bind (bind p_literal ?f) ?g (?l ++ r)%list] =>
        rewrite (bind_step (bind p_literal f) g (l ++ r)%list (Some v) r) by (now rewrite (bind_step _ _ _ _ _ (literal_complete _ _ r H1 I))) end. reflexivity.
    - red in V. subst. cbn [app]. rewrite (bind_step _ _ _ _ _ (optional_no _ _ N)). reflexivity. }
  destruct H as (la & m & -> & HA & H). destruct H as (lp & m' & -> & HP & H). destruct H as (ld & m'' & -> & HD & H). destruct H as (li & m3 & -> & (ln & ->) & H). destruct H as (lr & lv & -> & HR & HV).
  repeat rewrite <- app_assoc. cbn [app].
  assert (AA : after_annotations (lp ++ ld ++ (ln, TIdent s) :: lr ++ lv ++ r)%list).
  { destruct HP as [HP|HP]; open_seq; [|split; reflexivity]. apply directions_lead in HD as [->|(? & ? & ? & -> & _)]; split; reflexivity. }
  repeat rewrite <- app_assoc. cbn [app]. rewrite (bind_step _ _ _ _ _ (annotations_complete _ _ _ HA AA)).
  destruct HP as [HP|HP]; open_seq.
  - erewrite bind_step; [apply T; eassumption|]. apply optional_no.
    apply directions_lead in HD as [->|(? & ? & ? & -> & [<-|[<-|[]]])]; reflexivity.
  - steps. apply T; eassumption.
Qed.
Lemma locator_member_complete : complete p_locator_member g_locator_member any.
Proof. intros [] pre r H _; cbn [g_locator_member] in H; open_seq; unfold p_locator_member; cbn; reflexivity. Qed.
Lemma params_complete : complete (p_block first_param p_param) (fun l => braces (each g_param l)) any.
Proof.
  eapply block_complete; [apply param_complete|apply param_leads| |split; reflexivity].
  intros [|(n, t) l]; cbn; [discriminate|]. unfold first_param, not_next, is_at. cbn. destruct t as [s|c| | |]; cbn; try reflexivity. rewrite !orb_false_r. intros E. apply Ascii.eqb_eq in E as ->. reflexivity.
Qed.
Lemma locator_members_complete : complete (p_block (is_keyword ["target"; "variable"]) p_locator_member) (fun l => braces (each g_locator_member l)) any.
Proof. eapply block_complete; [apply locator_member_complete|apply locator_member_leads|intros; exact I|split; reflexivity]. Qed.
Lemma resource_member_complete : complete p_resource_member g_resource_member any.
Proof.
  intros [[n a s ps]|[n a s ms]] pre r H _; cbn [g_resource_member] in H; unfold p_resource_member.
  - unfold g_method in H. cbn [sx_line sx_annots sx_name sx_params] in H. start_at H.
    destruct H as (la & m & -> & HA & H). destruct H as (lp & m' & -> & HP & H). destruct H as (li & m3 & -> & (ln & ->) & H).
    destruct HP as [HP|HP]; open_seq; annots; rewrite (bind_step _ _ _ _ _ (params_complete _ _ r H I)); reflexivity.
  - unfold g_locator in H. cbn [sl_line sl_annots sl_name sl_members] in H. start_at H.
    destruct H as (la & m & -> & HA & H). destruct H as (lp & m' & -> & HP & H). destruct H as (li & m3 & -> & (ln & ->) & H).
    open_seq; annots; rewrite (bind_step _ _ _ _ _ (locator_members_complete _ _ r H I)); reflexivity.
Qed.
Lemma code_complete : complete p_error_member g_code any.
Proof. intros s pre r H _. unfold g_code in H. open_seq. unfold p_error_member. steps. reflexivity. Qed.
Lemma decl_complete : complete p_decl g_decl any.
Proof.
  intros [n a s b] pre r H _. unfold g_decl in H. cbn [sd_line sd_annots sd_name sd_body] in H. unfold p_decl. start_at H.
  destruct H as (la & m & -> & HA & H).
  destruct b as [l|l|l|l|l]; cbn [g_body] in H; destruct H as (lp & m' & -> & HP & H); destruct H as (li & m3 & -> & (ln & ->) & H); open_seq; annots; cbv zeta;
  cbn [String.eqb Ascii.eqb Bool.eqb]; steps.
  - rewrite (bind_step _ _ _ _ _ (block_complete _ _ _ _ value_complete value_leads (fun _ _ => I) (fun _ _ => conj eq_refl I) _ _ r H I)). reflexivity.
  - rewrite (bind_step _ _ _ _ _ (block_complete _ _ _ _ member_complete member_leads (fun _ _ => I) (fun _ _ => conj eq_refl I) _ _ r H I)). reflexivity.
  - rewrite (bind_step _ _ _ _ _ (block_complete _ _ _ _ member_complete member_leads (fun _ _ => I) (fun _ _ => conj eq_refl I) _ _ r H I)). reflexivity.
  - rewrite (bind_step _ _ _ _ _ (block_complete _ _ _ _ code_complete code_leads (fun _ _ => I) (fun _ _ => conj eq_refl I) _ _ r H I)). reflexivity.
  - rewrite (bind_step _ _ _ _ _ (block_complete _ _ _ _ resource_member_complete resource_member_leads (fun _ _ => I) (fun _ _ => conj eq_refl I) _ _ r H I)). reflexivity.
Qed.
Lemma file_complete : complete p_file g_file (not_next first_decl).
Proof. intros x pre r H N. apply (many_complete _ _ _ _ decl_complete decl_leads (fun _ _ => I)); [assumption|]. now split. Qed.

(** The parser finds the tree, and there is only one. *)
Lemma file_iff l ds r : p_file l = POk ds r <-> exists pre, l = (pre ++ r)%list /\ g_file ds pre /\ not_next first_decl r.
Proof.
  split.
  - intros H. destruct (file_sound _ _ _ H) as (pre & -> & G). exists pre. repeat split; try assumption. exact (many_rest _ _ _ _ _ H).
  - intros (pre & -> & G & N). now apply file_complete.
Qed.
Lemma first_decl_iff t : first_decl t = true <-> opens_decl t.
Proof.
  unfold first_decl, opens_decl, is_at. rewrite orb_true_iff, token_eqb_eq. split; intros [H|H]; try (now left); right.
  - destruct t as [s| | | |]; try discriminate. cbn [is_keyword] in H. apply existsb_exists in H as (x & I & E). apply String.eqb_eq in E as ->. now exists x.
  - destruct H as (s & I & ->). cbn [is_keyword]. apply existsb_exists. exists s. split; [assumption|apply String.eqb_refl].
Qed.
Lemma file_unambiguous ds ds' l : g_file ds l -> g_file ds' l -> ds = ds'.
Proof.
  intros H K. pose proof (file_complete ds l [] H eq_refl) as A. rewrite (file_complete ds' l [] K eq_refl) in A. now injection A.
Qed.
