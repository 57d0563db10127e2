(** Proofs about the documentation of the nodes. *)
From Coq Require Import Ascii String Bool Arith ZArith NArith Lia List.
From Verif Require Import GoStrings GoStringsProofs TextModel TextSpec TextProofs TextProofs4 ReaderModel SyntaxModel SyntaxSpec.
Import ListNotations.
Local Open Scope string_scope.

Inductive reads_docs : comments -> list nat -> list string -> comments -> Prop :=
| rd_nil c : reads_docs c [] [] c
| rd_cons c n d c1 ns ds c2 : get_doc c n = GotDoc d [] c1 -> reads_docs c1 ns ds c2 -> reads_docs c (n :: ns) (d :: ds) c2.
Lemma reads_docs_app c ns ms ds c2 : reads_docs c (ns ++ ms)%list ds c2 ->
  exists d1 d2 c1, ds = (d1 ++ d2)%list /\ reads_docs c ns d1 c1 /\ reads_docs c1 ms d2 c2.
Proof.
  revert c ds. induction ns as [|n ns IH]; intros c ds H; cbn in H.
  - exists [], ds, c. repeat split; [constructor|assumption].
  - inversion H as [|? ? d c1 ? ds' ? G R]; subst. destruct (IH _ _ R) as (d1 & d2 & c3 & -> & A & B). exists (d :: d1), d2, c3. repeat split; [|assumption]. econstructor; eauto.
Qed.

(** Walking nodes. *)
Definition documents {A B C} (w : A -> walker B) (lines : A -> list nat) (docs : B -> list string) (forget : B -> C) (erase : A -> C) : Prop :=
  forall x c ds c', reads_docs c (lines x) ds c' -> exists y, w x c = Documented y [] c' /\ docs y = ds /\ forget y = erase x.
Lemma documents_all {A B C} (w : A -> walker B) lines docs (forget : B -> C) erase : documents w lines docs forget erase ->
  documents (walk_all w) (flat_map lines) (flat_map docs) (map forget) (map erase).
Proof.
  intros W x. induction x as [|x xs IH]; intros c ds c' H; cbn in H.
  - inversion H; subst. exists []. now repeat split.
  - apply reads_docs_app in H as (d1 & d2 & c1 & -> & A1 & A2). destruct (W _ _ _ _ A1) as (y & E1 & D1 & F1). destruct (IH _ _ _ A2) as (ys & E2 & D2 & F2).
    exists (y :: ys). cbn. unfold wbind. rewrite E1, E2. cbn. now rewrite D1, D2, F1, F2.
Qed.
Lemma doc_at_step n c d c1 : get_doc c n = GotDoc d [] c1 -> doc_at n c = Documented d [] c1.
Proof. unfold doc_at. now intros ->. Qed.
Lemma reads_one c n ds c' : reads_docs c [n] ds c' -> exists d, ds = [d] /\ doc_at n c = Documented d [] c'.
Proof. intros H. inversion H as [|? ? d c1 ? ds' ? G R]; subst. inversion R; subst. exists d. split; [reflexivity|now apply doc_at_step]. Qed.

Lemma flat_map_single {A B} (f : A -> B) l : flat_map (fun x => [f x]) l = map f l.
Proof. induction l; cbn; [reflexivity|]. now f_equal. Qed.
Lemma value_documents : documents doc_value (fun x => [sv_line x]) (fun y => [vd_doc y]) bare_value unplaced_value.
Proof. intros x c ds c' H. apply reads_one in H as (d & -> & E). eexists. unfold doc_value, wbind. rewrite E. now repeat split. Qed.
Lemma member_documents : documents doc_member (fun x => [sm_line x]) (fun y => [md_doc y]) bare_member unplaced_member.
Proof. intros x c ds c' H. apply reads_one in H as (d & -> & E). eexists. unfold doc_member, wbind. rewrite E. now repeat split. Qed.
Lemma param_documents : documents doc_param (fun x => [sp_line x]) (fun y => [pd_doc y]) bare_param unplaced_param.
Proof. intros x c ds c' H. apply reads_one in H as (d & -> & E). eexists. unfold doc_param, wbind. rewrite E. now repeat split. Qed.
Lemma resource_member_documents : documents doc_resource_member resource_member_lines resource_member_docs bare_resource_member unplaced_resource_member.
Proof.
  intros [m|m] c ds c' H; cbn [resource_member_lines] in H.
  - apply reads_docs_app in H as (d1 & d2 & c1 & -> & A & B). rewrite <- (flat_map_single sp_line) in A. destruct (documents_all _ _ _ _ _ param_documents _ _ _ _ A) as (ps & E & D & F).
    apply reads_one in B as (d & -> & E2). eexists. cbn [doc_resource_member]. split; [unfold doc_method, wbind; rewrite E, E2; reflexivity|]. cbn. rewrite flat_map_single in D. rewrite D, F. split; reflexivity.
  - apply reads_one in H as (d & -> & E). eexists. cbn [doc_resource_member]. unfold doc_locator, wbind. rewrite E. now repeat split.
Qed.
Lemma decl_documents : documents doc_decl decl_lines decl_docs bare unplaced.
Proof.
  intros [n a s b] c ds c' H. unfold decl_lines in H. cbn [sd_line sd_body] in H. apply reads_docs_app in H as (d1 & d2 & c1 & -> & A & B). apply reads_one in B as (d & -> & E2).
  unfold doc_decl, unplaced. cbn [sd_line sd_body sd_annots sd_name]. destruct b as [l|l|l|l|l]; cbn [body_lines] in A.
  - rewrite <- (flat_map_single sv_line) in A. destruct (documents_all _ _ _ _ _ value_documents _ _ _ _ A) as (ps & E & D & F). eexists. split; [unfold wbind; rewrite E, E2; reflexivity|]. cbn. rewrite flat_map_single in D. rewrite D, F. split; reflexivity.
  - rewrite <- (flat_map_single sm_line) in A. destruct (documents_all _ _ _ _ _ member_documents _ _ _ _ A) as (ps & E & D & F). eexists. split; [unfold wbind; rewrite E, E2; reflexivity|]. cbn. rewrite flat_map_single in D. rewrite D, F. split; reflexivity.
  - rewrite <- (flat_map_single sm_line) in A. destruct (documents_all _ _ _ _ _ member_documents _ _ _ _ A) as (ps & E & D & F). eexists. split; [unfold wbind; rewrite E, E2; reflexivity|]. cbn. rewrite flat_map_single in D. rewrite D, F. split; reflexivity.
  - inversion A; subst. eexists. unfold wbind. rewrite E2. now repeat split.
  - destruct (documents_all _ _ _ _ _ resource_member_documents _ _ _ _ A) as (ps & E & D & F). eexists. split; [unfold wbind; rewrite E, E2; reflexivity|]. cbn. rewrite D, F. split; reflexivity.
Qed.

(** Blocks of different lines don't overlap. *)
Lemma block_at c n b k : comment_block c n b -> n - length b <= k < n -> comment_at c k <> None.
Proof.
  intros (L & B & _) K. destruct (nth_error b (k - (n - length b))) as [s|] eqn:E.
  - apply B in E. replace (n - length b + (k - (n - length b))) with k in E by lia. congruence.
  - apply nth_error_None in E. lia.
Qed.
Lemma keeps_block c c' c'' m bm n b :
  comment_at c m = None -> comment_at c n = None -> (m = n -> bm = []) ->
  comment_block c m bm -> comment_block c n b -> comment_block c' n b -> consumed c' m bm c'' -> comment_block c'' n b.
Proof.
  intros NM NN MN BM BN (L & B & F) K.
  assert (D : forall k, n - length b <= k < n -> m - length bm <= k < m -> False).
  { intros k K1 K2. destruct (Nat.lt_trichotomy m n) as [H|[H|H]].
    - apply (block_at c n b m BN); [lia|assumption].
    - rewrite (MN H) in K2. cbn in K2. lia.
    - apply (block_at c m bm n BM); [lia|assumption]. }
  split; [assumption|]. split.
  - intros i s E. assert (i < length b) by (apply nth_error_Some; congruence). rewrite K. specialize (D (n - length b + i)).
    destruct (Nat.leb_spec (m - length bm) (n - length b + i)), (Nat.ltb_spec (n - length b + i) m); cbn; try (now apply B). exfalso. apply D; lia.
  - intros LT. rewrite K. destruct (_ && _); [reflexivity|]. now apply F.
Qed.

Lemma reads_documents c : forall lines c',
  (forall n, In n lines -> comment_at c n = None) -> NoDup (filter (commented c) lines) ->
  (forall n, In n lines -> exists block doc, comment_block c n block /\ comment_block c' n block /\ documented block doc) ->
  exists docs c'', reads_docs c' lines docs c'' /\ Forall2 (doc_for c) lines docs.
Proof.
  induction lines as [|m lines IH]; intros c' T N D.
  - exists [], c'. split; constructor.
  - destruct (D m (or_introl eq_refl)) as (bm & dm & BM & BM' & DM). destruct (doc_found _ _ _ _ BM' DM) as (c1 & G & K).
    destruct (IH c1) as (docs & c2 & R & F).
    + intros n I. apply T. now right.
    + cbn in N. destruct (commented c m); [now inversion N|assumption].
    + intros n I. destruct (D n (or_intror I)) as (b & d & B & B' & DD). exists b, d. split; [assumption|]. split; [|assumption].
      refine (keeps_block c c' c1 m bm n b _ _ _ BM B B' K); [apply T; now left|apply T; now right|].
      intros <-. destruct bm as [|s bm]; [reflexivity|]. exfalso.
      assert (commented c m = true) as C.
      { unfold commented. pose proof (block_at c m (s :: bm) (m - 1) BM) as Z. destruct BM as (L & _). cbn in L, Z. destruct (comment_at c (m - 1)); [reflexivity|]. exfalso. apply Z; [lia|reflexivity]. }
      cbn in N. rewrite C in N. inversion N as [|? ? NI _]; subst. apply NI. apply filter_In. now split.
    + exists (dm :: docs), c2. split; [econstructor; eassumption|]. constructor; [|assumption]. now exists bm.
Qed.
Lemma load_documents s ds ign c : parse_text s = Parsed ds ign c ->
  (forall n, In n (flat_map decl_lines ds) -> comment_at c n = None) -> NoDup (filter (commented c) (flat_map decl_lines ds)) ->
  (forall n, In n (flat_map decl_lines ds) -> exists doc, doc_for c n doc) ->
  exists ds', load_text s = Loaded ds' [] ign /\ map bare ds' = map unplaced ds /\ Forall2 (doc_for c) (flat_map decl_lines ds) (flat_map decl_docs ds').
Proof.
  intros P T N D. destruct (reads_documents c (flat_map decl_lines ds) c T N) as (docs & c2 & R & F).
  - intros n I. destruct (D n I) as (doc & b & B & DD). now exists b, doc.
  - destruct (documents_all _ _ _ _ _ decl_documents _ _ _ _ R) as (ds' & E & DD & FF). exists ds'. unfold load_text. rewrite P, E. rewrite DD. now repeat split.
Qed.
Lemma doc_for_unique c n doc doc' : doc_for c n doc -> doc_for c n doc' -> doc = doc'.
Proof.
  intros (b & B & D) (b' & B' & D'). destruct (doc_found _ _ _ _ B D) as (c1 & G & _). destruct (doc_found _ _ _ _ B' D') as (c2 & G' & _). congruence.
Qed.
