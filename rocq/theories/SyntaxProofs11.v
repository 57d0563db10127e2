(** Proofs about the reports of the comments that aren't documentation. *)
From Coq Require Import Ascii String Bool Arith ZArith NArith Lia List.
From Verif Require Import GoStrings GoStringsProofs ReporterModel TextModel TextSpec TextProofs TextProofs4 ReaderModel SyntaxModel SyntaxSpec SyntaxProofs10.
Import ListNotations.
Local Open Scope string_scope.

Inductive reads_all : comments -> list nat -> list report -> comments -> Prop :=
| ra_nil c : reads_all c [] [] c
| ra_cons c n d r c1 ns rs c2 : get_doc c n = GotDoc d r c1 -> reads_all c1 ns rs c2 -> reads_all c (n :: ns) (r ++ rs)%list c2.
Lemma reads_all_app c ns ms r1 r2 c1 c2 : reads_all c ns r1 c1 -> reads_all c1 ms r2 c2 -> reads_all c (ns ++ ms)%list (r1 ++ r2)%list c2.
Proof. intros H. revert r2 c2. induction H as [|c n d r c1 ns rs c2 G H IH]; intros r2 c3 H2; cbn; [assumption|]. rewrite <- app_assoc. econstructor; eauto. Qed.
Lemma reads_all_one c n d r c1 : get_doc c n = GotDoc d r c1 -> reads_all c [n] r c1.
Proof. intros G. rewrite <- (app_nil_r r). econstructor; [eassumption|constructor]. Qed.
Lemma reads_all_nil c r c' : c = c' -> r = [] -> reads_all c [] r c'.
Proof. intros -> ->. constructor. Qed.

Definition walks {A} (w : walker A) (lines : list nat) : Prop :=
  forall c y r c', w c = Documented y r c' -> reads_all c lines r c'.
Lemma walks_bind {A B} (w : walker A) (f : A -> walker B) ns ms : walks w ns -> (forall x, walks (f x) ms) -> walks (wbind w f) (ns ++ ms)%list.
Proof.
  intros W F c y r c' E. unfold wbind in E. destruct (w c) as [x r1 c1|] eqn:E1; [|discriminate]. destruct (f x c1) as [z r2 c2|] eqn:E2; [|discriminate].
  injection E as <- <- <-. eapply reads_all_app; [eapply W; eassumption|eapply F; eassumption].
Qed.
Lemma walks_ret {A} (x : A) : walks (wret x) [].
Proof. intros c y r c' E. injection E as <- <- <-. constructor. Qed.
Lemma walks_doc n : walks (doc_at n) [n].
Proof. intros c y r c' E. unfold doc_at in E. destruct (get_doc c n) as [d q c1|] eqn:G; [|discriminate]. injection E as <- <- <-. eapply reads_all_one; eassumption. Qed.
Lemma walks_doc_ret {A} n (f : string -> A) : walks (doc* d := doc_at n in wret (f d)) [n].
Proof. rewrite <- (app_nil_r [n]). apply walks_bind; [apply walks_doc|intros; apply walks_ret]. Qed.
Lemma walks_then_doc {A C} (w : walker A) ns n (f : A -> string -> C) : walks w ns -> walks (doc* x := w in doc* d := doc_at n in wret (f x d)) (ns ++ [n])%list.
Proof. intros W. apply walks_bind; [assumption|]. intros x. apply walks_doc_ret. Qed.
Lemma walks_all {A B} (f : A -> walker B) lines : (forall x, walks (f x) (lines x)) -> forall l, walks (walk_all f l) (flat_map lines l).
Proof.
  intros F. induction l as [|x l IH]; cbn [walk_all flat_map]; [apply walks_ret|]. apply walks_bind; [apply F|]. intros y.
  rewrite <- (app_nil_r (flat_map lines l)). apply walks_bind; [assumption|]. intros ys. apply walks_ret.
Qed.
Lemma walks_map {A B} (f : A -> walker B) line : (forall x, walks (f x) [line x]) -> forall l, walks (walk_all f l) (map line l).
Proof. intros F l. rewrite <- flat_map_single. now apply walks_all. Qed.
Lemma walks_resource_member x : walks (doc_resource_member x) (resource_member_lines x).
Proof.
  destruct x as [m|m]; cbn [doc_resource_member resource_member_lines].
  - rewrite <- (app_nil_r (map _ _ ++ _)%list). apply walks_bind; [|intros; apply walks_ret]. unfold doc_method.
    apply walks_then_doc. apply walks_map. intros p. apply walks_doc_ret.
  - change [sl_line m] with ([sl_line m] ++ [])%list. apply walks_bind; [|intros; apply walks_ret]. apply walks_doc_ret.
Qed.
Lemma walks_decl x : walks (doc_decl x) (decl_lines x).
Proof.
  destruct x as [n a s b]. unfold doc_decl, decl_lines. cbn [sd_line sd_body sd_annots sd_name].
  destruct b as [l|l|l|l|l]; cbn [body_lines]; try (apply walks_then_doc; apply walks_map; intros x; apply walks_doc_ret).
  - apply (walks_doc_ret n).
  - apply walks_then_doc. apply walks_all. apply walks_resource_member.
Qed.

Lemma block_exists c n : exists b, comment_block c n b.
Proof. destruct (collect_spec n c []) as (b & c' & E & B & _). now exists b. Qed.
Lemma reports_errors c lines r c' : reads_all c lines r c' -> Forall (fun r => rp_severity r = SError) r.
Proof.
  induction 1 as [|c n d r c1 ns rs c2 G H IH]; [constructor|]. apply Forall_app. split; [|assumption].
  destruct (block_exists c n) as (b & B). pose proof (doc_read c n b B) as R. rewrite G in R. destruct r; [constructor|]. now destruct R as (_ & R & _).
Qed.
Lemma silent_documents c : forall lines c' r c'',
  reads_all c' lines r c'' -> r = [] ->
  (forall n, In n lines -> comment_at c n = None) -> NoDup (filter (commented c) lines) ->
  (forall n, In n lines -> exists block, comment_block c n block /\ comment_block c' n block) ->
  forall n, In n lines -> exists doc, doc_for c n doc.
Proof.
  intros lines c' r c'' H. induction H as [|c' m d r c1 ns rs c2 G H IH]; intros R T N D n I; [easy|].
  apply app_eq_nil in R as [-> ->]. destruct (D m (or_introl eq_refl)) as (bm & BM & BM'). pose proof (doc_read c' m bm BM') as X. rewrite G in X. destruct X as [DM K].
  destruct I as [<-|I]; [now exists d, bm|]. apply IH; [reflexivity| | | |assumption].
  - intros k J. apply T. now right.
  - cbn in N. destruct (commented c m); [now inversion N|assumption].
  - intros k J. destruct (D k (or_intror J)) as (b & B & B'). exists b. split; [assumption|].
    refine (keeps_block c c' c1 m bm k b _ _ _ BM B B' K); [apply T; now left|apply T; now right|].
    intros <-. destruct bm as [|s bm]; [reflexivity|]. exfalso.
    assert (commented c m = true) as C.
    { unfold commented. pose proof (block_at c m (s :: bm) (m - 1) BM) as Z. destruct BM as (L & _). cbn in L, Z. destruct (comment_at c (m - 1)); [reflexivity|]. exfalso. apply Z; [lia|reflexivity]. }
    cbn in N. rewrite C in N. inversion N as [|? ? NI _]; subst. apply NI. apply filter_In. now split.
Qed.
Lemma load_reports s ds ign c n : parse_text s = Parsed ds ign c ->
  (forall n, In n (flat_map decl_lines ds) -> comment_at c n = None) -> NoDup (filter (commented c) (flat_map decl_lines ds)) ->
  In n (flat_map decl_lines ds) -> (forall doc, ~ doc_for c n doc) ->
  load_text s = LoadPanics \/
  exists ds' reports, load_text s = Loaded ds' reports ign /\ reports <> [] /\ Forall (fun r => rp_severity r = SError) reports.
Proof.
  intros P T N I D. unfold load_text. rewrite P. destruct (walk_all doc_decl ds c) as [ds' r c'|] eqn:E; [right|now left].
  pose proof (walks_all doc_decl decl_lines walks_decl ds c ds' r c' E) as R. exists ds', r. split; [reflexivity|]. split; [|eapply reports_errors; eassumption].
  intros ->. destruct (silent_documents c _ _ _ _ R eq_refl T N) with (n := n) as (doc & X); [|assumption|].
  - intros k _. destruct (block_exists c k) as (b & B). now exists b.
  - exact (D doc X).
Qed.
