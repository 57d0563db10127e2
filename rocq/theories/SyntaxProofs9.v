(** Proofs about the layout of complete texts, and about the texts of trees. *)
From Coq Require Import Ascii String Bool Arith ZArith NArith Lia List.
From Verif Require Import GoStrings GoStringsProofs TextModel TextSpec TextProofs ReaderModel SyntaxModel SyntaxSpec SyntaxProofs SyntaxProofs2 SyntaxProofs3 SyntaxProofs4 SyntaxProofs5 SyntaxProofs6 SyntaxProofs7 SyntaxProofs8.
Import ListNotations.
Local Open Scope string_scope.

Lemma laid_lexes g l s : gap g -> laid_out l s -> exists ps cs, lexes 1 (g ++ s) ps cs "" /\ map snd ps = l.
Proof.
  intros G L. destruct (lexes_laid l s L (1 + newlines g)) as (ps & cs & X & E). destruct (lexes_gap g G _ _ _ _ X) as (cs' & X'). now exists ps, cs'.
Qed.
Lemma lexes_parse s ps cs : lexes 1 s ps cs "" ->
  parse_text s = match p_file ps with POk l r => Parsed l r cs | PError => SyntaxError | PFuel => ParseFuel end.
Proof.
  intros L. unfold parse_text. rewrite (lex_file_complete s ps cs "" AtEnd L) by (now left). cbn [lx_tokens lx_comments lx_end].
  destruct (p_file ps) as [l [|t r]| |]; reflexivity.
Qed.
Lemma not_next_snd first (r r' : list placed) : map snd r = map snd r' -> not_next first r -> not_next first r'.
Proof. unfold not_next. destruct r as [|(n, t) r], r' as [|(n', t') r']; cbn; try discriminate; [auto|]. intros [= <- _]. auto. Qed.
Lemma p_file_snd ps ps' ds r : map snd ps = map snd ps' -> p_file ps = POk ds r ->
  exists ds' r', p_file ps' = POk ds' r' /\ map unplaced ds' = map unplaced ds /\ map snd r = map snd r'.
Proof.
  intros E P. apply file_iff in P as (pre & -> & G & N). apply map_app_split in E as (pre' & r' & -> & E1 & E2). destruct (file_relines _ _ _ G E1) as (ds' & G' & U).
  exists ds', r'. split; [|now split]. apply file_iff. exists pre'. split; [reflexivity|]. split; [assumption|]. now apply (not_next_snd _ r).
Qed.
Lemma layouts g s g' s' l : gap g -> laid_out l s -> gap g' -> laid_out l s' ->
  match parse_text (g ++ s), parse_text (g' ++ s') with
  | Parsed ds ign _, Parsed ds' ign' _ => map unplaced ds = map unplaced ds' /\ map snd ign = map snd ign'
  | SyntaxError, SyntaxError => True
  | _, _ => False
  end.
Proof.
  intros G L G' L'. destruct (laid_lexes g l s G L) as (ps & cs & X & E). destruct (laid_lexes g' l s' G' L') as (ps' & cs' & X' & E').
  rewrite (lexes_parse _ _ _ X), (lexes_parse _ _ _ X'). assert (EE : map snd ps = map snd ps') by congruence.
  destruct (p_file ps) as [ds r| |] eqn:P.
  - destruct (p_file_snd _ _ _ _ EE P) as (ds' & r' & -> & U & R). now split.
  - destruct (p_file ps') as [ds' r'| |] eqn:P'; [|exact I|now apply file_fuel in P']. destruct (p_file_snd _ _ _ _ (eq_sym EE) P') as (ds & r & Q & _). congruence.
  - now apply file_fuel in P.
Qed.

(** * Texts of trees *)

Definition writable (p : placed) : Prop := fst p = 0 /\ exists a, token_text (snd p) a.
Definition prints (a : language) : Prop := exists l, a l /\ Forall writable l.
Lemma prints_nothing : prints nothing. Proof. exists []. split; [reflexivity|constructor]. Qed.
Lemma prints_seq a b : prints a -> prints b -> prints (a >> b).
Proof. intros (x & A & X) (y & B & Y). exists (x ++ y)%list. split; [now apply seq_in|]. apply Forall_app. now split. Qed.
Lemma prints_tok t a : token_text t a -> prints (tok t).
Proof. intros T. exists [(0, t)]. split; [now exists 0|]. repeat constructor. now exists a. Qed.
Lemma prints_left a b : prints a -> prints (either a b).
Proof. intros (x & A & X). exists x. split; [now left|assumption]. Qed.
Lemma prints_right a b : prints b -> prints (either a b).
Proof. intros (x & A & X). exists x. split; [now right|assumption]. Qed.
Lemma prints_only (p : Prop) a : p -> prints a -> prints (only p a).
Proof. intros P (x & A & X). exists x. now split. Qed.
Lemma prints_each {A} (f : A -> language) xs : Forall (fun x => prints (f x)) xs -> prints (each f xs).
Proof. induction 1; cbn; [apply prints_nothing|]. now apply prints_seq. Qed.
Lemma prints_starting a : nonempty a -> prints a -> prints (starting 0 a).
Proof.
  intros N (x & A & X). exists x. split; [|assumption]. split; [assumption|]. specialize (N _ A). destruct X as [|(n, t) x (Z & _) X]; [easy|]. cbn in Z. subst n. now exists t, x.
Qed.
Lemma prints_word s : In s words -> prints (word s).
Proof. intros I. apply (prints_tok _ s). apply (text_of_token (WordRule s)); [now split|constructor|discriminate]. Qed.
Lemma prints_mark c : chars marks c -> prints (mark c).
Proof. intros I. apply (prints_tok _ (String c "")). apply (text_of_token (MarkRule c)); [now split|constructor|discriminate]. Qed.
Lemma prints_ident s : name_ok s -> prints (ident s).
Proof. intros (M & W). apply (prints_tok _ s). apply (text_of_token NameRule); [assumption|constructor|auto]. Qed.
Lemma prints_number s : matches NumberRule s -> prints (tok (TInt s)).
Proof. intros M. apply (prints_tok _ s). apply (text_of_token NumberRule); [assumption|constructor|discriminate]. Qed.
Ltac prints_by :=
  repeat first
  [ apply prints_nothing
  | apply prints_ident; assumption
  | apply prints_number; assumption
  | apply prints_word; cbn; tauto
  | apply prints_mark; cbn; tauto
  | apply prints_seq ].

Lemma prints_literal x : literal_ok x -> prints (g_literal x).
Proof.
  destruct x as [[]|s|s u]; cbn; intros H; prints_by. destruct H as (M & D). apply prints_only; [assumption|]. apply (prints_tok _ s). apply (text_of_token StringRule); [assumption|constructor|discriminate].
Qed.
Lemma prints_annotation x : annotation_ok x -> prints (g_annotation x).
Proof.
  intros (N & P). unfold g_annotation. apply prints_seq; [prints_by|]. apply prints_seq; [prints_by|]. apply prints_right. apply prints_seq; [prints_by|]. apply prints_seq; [|prints_by].
  apply prints_each. eapply Forall_impl; [|exact P]. intros (n, v) (A & B). cbn in A, B. unfold g_setting. cbn [fst snd]. prints_by. now apply prints_literal.
Qed.
Lemma prints_annotations l : Forall annotation_ok l -> prints (g_annotations l).
Proof. intros H. apply prints_each. eapply Forall_impl; [|exact H]. apply prints_annotation. Qed.
Lemma prints_reference x : ref_ok x -> prints (g_reference x).
Proof. destruct x; cbn; intros H; [| |destruct H]; prints_by. Qed.
Lemma prints_braces a : prints a -> prints (braces a).
Proof. intros H. unfold braces. apply prints_seq; [prints_by|]. apply prints_seq; [assumption|prints_by]. Qed.
Lemma prints_value x : value_ok x -> prints (g_value (unplaced_value x)).
Proof.
  intros (A & N). unfold g_value. cbn. apply prints_starting; [apply nonempty_right, nonempty_right, nonempty_tok|]. apply prints_seq; [now apply prints_annotations|].
  apply prints_seq; [apply prints_left, prints_nothing|prints_by].
Qed.
Lemma prints_member x : member_ok x -> prints (g_member (unplaced_member x)).
Proof.
  intros (A & N & R). unfold g_member. cbn [unplaced_member sm_line sm_annots sm_link sm_name sm_ref]. apply prints_starting; [apply nonempty_right, nonempty_right, nonempty_left, nonempty_tok|].
  apply prints_seq; [now apply prints_annotations|]. apply prints_seq; [destruct (sm_link x); [prints_by|apply prints_left, prints_nothing]|]. apply prints_seq; [prints_by|now apply prints_reference].
Qed.
Lemma prints_param x : param_ok x -> prints (g_param (unplaced_param x)).
Proof.
  intros (A & N & R & V). unfold g_param. cbn [unplaced_param sp_line sp_annots sp_directions sp_name sp_ref sp_default]. apply prints_starting; [apply nonempty_right, nonempty_right, nonempty_right, nonempty_left, nonempty_tok|].
  apply prints_seq; [now apply prints_annotations|]. apply prints_seq; [apply prints_left, prints_nothing|]. apply prints_seq.
  { apply prints_each. apply Forall_forall. intros [] _; cbn; prints_by. }
  apply prints_seq; [prints_by|]. apply prints_seq; [now apply prints_reference|]. destruct (sp_default x); [|prints_by]. apply prints_seq; [prints_by|now apply prints_literal].
Qed.
Lemma Forall_map_impl {A B} (f : A -> B) (P : A -> Prop) (Q : B -> Prop) l : (forall x, P x -> Q (f x)) -> Forall P l -> Forall Q (map f l).
Proof. intros H K. apply Forall_map. now apply (Forall_impl _ H). Qed.
Lemma prints_resource_member x : resource_member_ok x -> prints (g_resource_member (unplaced_resource_member x)).
Proof.
  destruct x as [m|m]; cbn [resource_member_ok unplaced_resource_member g_resource_member]; intros (A & N & P).
  - unfold g_method. cbn [sx_line sx_annots sx_name sx_params]. apply prints_starting; [apply nonempty_right, nonempty_right, nonempty_left, nonempty_tok|].
    apply prints_seq; [now apply prints_annotations|]. apply prints_seq; [apply prints_left, prints_nothing|]. apply prints_seq; [prints_by|]. apply prints_braces, prints_each.
    revert P. apply Forall_map_impl. apply prints_param.
  - unfold g_locator. cbn [sl_line sl_annots sl_name sl_members]. apply prints_starting; [apply nonempty_right, nonempty_left, nonempty_tok|].
    apply prints_seq; [now apply prints_annotations|]. apply prints_seq; [prints_by|]. apply prints_seq; [prints_by|]. apply prints_braces, prints_each.
    eapply Forall_impl; [|exact P]. intros []; cbn; intros; prints_by.
Qed.
Lemma prints_decl x : decl_ok x -> prints (g_decl (unplaced x)).
Proof.
  intros (A & N & B). unfold g_decl, unplaced. cbn [sd_line sd_annots sd_name sd_body]. apply prints_starting.
  { apply nonempty_right. destruct (sd_body x); cbn [g_body unplaced_body]; apply nonempty_left, nonempty_tok. }
  apply prints_seq; [now apply prints_annotations|]. destruct (sd_body x) as [l|l|l|l|l]; cbn [g_body unplaced_body body_ok] in *;
  (apply prints_seq; [prints_by|]; apply prints_seq; [prints_by|]; apply prints_braces, prints_each).
  - revert B. apply Forall_map_impl, prints_value.
  - revert B. apply Forall_map_impl, prints_member.
  - revert B. apply Forall_map_impl, prints_member.
  - eapply Forall_impl; [|exact B]. intros s M. unfold g_code. prints_by.
  - revert B. apply Forall_map_impl, prints_resource_member.
Qed.
Lemma prints_file l : Forall decl_ok l -> prints (g_file (map unplaced l)).
Proof. intros H. apply prints_each. revert H. apply Forall_map_impl, prints_decl. Qed.

Lemma text_exists l : Forall writable l -> exists s, laid_out (map snd l) s.
Proof.
  induction 1 as [|(n, t) l (_ & a & T) _ (s & L)]; [exists ""; constructor|]. exists (a ++ " " ++ s). cbn [map snd]. apply laid_token; try assumption.
  - apply gap_blank; [now left|constructor].
  - unfold apart. destruct (map snd l); [exact I|]. discriminate.
Qed.
Lemma map_unplaced_idem l : map unplaced (map unplaced l) = map unplaced l.
Proof.
  rewrite map_map. apply map_ext. intros [n a s b]. unfold unplaced. cbn. f_equal. destruct b as [l'|l'|l'|l'|l']; cbn; try reflexivity; f_equal; rewrite map_map; apply map_ext; try reflexivity.
  intros [[m a' s' ps]|[m a' s' ms]]; cbn; try reflexivity. do 2 f_equal. rewrite map_map. now apply map_ext.
Qed.

Lemma written ds : Forall decl_ok ds -> exists l, (exists s, laid_out l s) /\
  forall g s, gap g -> laid_out l s -> exists ds' c, parse_text (g ++ s) = Parsed ds' [] c /\ map unplaced ds' = map unplaced ds.
Proof.
  intros H. destruct (prints_file ds H) as (l & G & W). exists (map snd l). split; [now apply text_exists|]. intros g s HG HL.
  destruct (laid_lexes g _ s HG HL) as (ps & cs & X & E). destruct (file_relines _ _ _ G (eq_sym E)) as (ds' & G' & U). exists ds', cs. split; [|now rewrite U, map_unplaced_idem].
  rewrite (lexes_parse _ _ _ X). pose proof (file_complete ds' ps [] G' eq_refl) as P. rewrite app_nil_r in P. now rewrite P.
Qed.
