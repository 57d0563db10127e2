(** Complete results of the buffers of the generators. *)
From Coq Require Import Ascii String Bool Arith ZArith NArith Lia Permutation List.
From Verif Require Import GoStrings GoStringsProofs GoMap GoMapProofs ReporterModel ReaderSpec ReaderProofs7 TextModel TextSpec TextProofs TextProofs2 TextProofs3 TextProofs4
  GoNamesModel BufferModel BufferSpec BufferProofs BufferProofs2 BufferProofs3.
Import ListNotations.
Local Open Scope string_scope.

Lemma without_cr_exists l : exists l', Forall2 without_cr l l'.
Proof.
  induction l as [|s l (l' & IH)]; [exists []; constructor|]. exists (drop_cr s :: l'). constructor; [apply without_cr_drop|exact IH].
Qed.

(** * Go *)

Lemma go_complete t l base output pkg file reports b reports' sys header order fs reports'' fs' :
  (forall m, Permutation (order m) m) ->
  go_events t l (new_go_buffer base output pkg file, reports) = (b, reports') ->
  write_go sys header order b reports' fs = (None, reports'', fs') ->
  exists texts more imports block lines lines' code,
    all_rendered t (shown (path_join [base; pkg])) l texts more /\
    (NoDup (map fst imports) /\
     (forall i s, In (i, s) imports -> i <> "" /\ i <> path_join [base; pkg] /\ (mentioned l i s \/ In (i, s) more)) /\
     (forall i s, i <> "" -> i <> path_join [base; pkg] -> mentioned l i s \/ In (i, s) more -> In i (map fst imports))) /\
    import_block imports block /\
    text_lines (emitted texts) lines /\ Forall2 without_cr lines lines' /\ tidied lines' code /\
    mget (path_join [output; pkg; file ++ ".go"]) fs' =
      Some (header ++ newline ++ newline ++ "package " ++ clean_pkg (path_base (path_join [base; pkg])) ++ " // " ++ path_join [base; pkg] ++ newline ++ newline ++
            block ++ terminated code)%string /\
    only_changes (path_join [output; pkg; file ++ ".go"]) fs fs'.
Proof.
  intros O H W. destruct (go_events_spec _ _ _ _ _ _ H) as (_ & F & P & Q). cbn [new_go_buffer gb_file gb_pkg gb_code gb_imports] in *.
  destruct (go_success _ _ _ _ _ _ _ _ W) as (Z & out & R). destruct (Q Z) as (texts & more & refs & A & C & I & J). cbn [append] in C.
  destruct (lines_exist (emitted texts)) as (lines & T). destruct (without_cr_exists lines) as (lines' & D).
  assert (S : Forall short lines).
  { rewrite C in R. pose proof (long_lines_fail _ _ T) as L. assert (G : Forall short lines \/ ~ Forall short lines).
    { clear. induction lines as [|s l [IH|IH]]; [left; constructor| |right; intros G; inversion_clear G; auto].
      destruct (N.ltb_spec (N.of_nat (String.length s)) 65536); [left; now constructor|right; intros G; inversion_clear G]. unfold short in *. lia. }
    destruct G as [G|G]; [exact G|]. apply L in G. congruence. }
  destruct (preamble_spec header order b (O _)) as (block & B & E).
  destruct (blank_lines_removed _ _ _ T S D) as (code & R' & _ & TD). rewrite C in R. rewrite R' in R. injection R as <-.
  exists texts, more, (order (gb_imports b)), block, lines, lines', code.
  split; [exact A|]. split.
  { destruct (add_imports_spec refs (MkGoBuffer (path_join [base; pkg]) (path_join [output; pkg; file ++ ".go"]) [] "") ltac:(constructor)) as (N1 & N2 & N3 & _).
    unfold new_go_buffer in I. rewrite <- I in N1, N2, N3. cbn [gb_pkg gb_imports] in N2, N3.
    assert (N : NoDup (mkeys (order (gb_imports b)))).
    { eapply Permutation_NoDup; [|exact N1]. apply Permutation_map, Permutation_sym, O. }
    split; [exact N|]. split.
    - intros i s IN. apply (Permutation_in _ (O _)) in IN. apply (mget_in_iff _ _ _ N1) in IN.
      destruct (N2 _ _ IN) as [G|(G1 & G2 & G3)]; [discriminate|]. split; [exact G1|]. split; [exact G2|]. now apply J.
    - intros i s G1 G2 G3. apply J in G3. destruct (N3 i s G1 G2 G3) as (s' & G). apply mget_in in G.
      apply (Permutation_in _ (Permutation_sym (O _))) in G. apply (in_map fst) in G. exact G. }
  split; [exact B|]. split; [exact T|]. split; [exact D|]. split; [exact TD|]. split.
  - revert W. unfold write_go. cbv zeta. rewrite count_info, (errors_found_zero _ Z). destruct (sys_mkdir _ _); [discriminate|]. destruct (sys_open _ _); [discriminate|].
    rewrite C, R'. intros W. injection W as _ <-. rewrite F, mget_mset_same, E, P, !sapp_assoc. reflexivity.
  - rewrite <- F. eapply go_only_changes, W.
Qed.

(** When all the templates can be rendered there are no errors. *)
Lemma go_no_errors t l : unordered t -> forall b reports texts more, errors_in reports 0 -> all_rendered t (shown (gb_pkg b)) l texts more ->
  errors_in (snd (go_events t l (b, reports))) 0.
Proof.
  intros U. induction l as [|e l IH]; intros b reports texts more Z A; [exact Z|].
  cbn [go_events fold_left]. fold (go_events t l (go_event t (b, reports) e)). inversion A as [|tmpl args text ims l' texts' more' R A'|i s l' texts' more' A'|r l' texts' more' NE A']; subst; cbn [go_event fst snd].
  - destruct (eval_go_rendered _ _ _ _ _ _ _ U Z R) as (b' & E). unfold emit_go. rewrite E.
    destruct (eval_go_spec _ _ _ _ _ _ _ _ E) as (_ & S). destruct (S Z) as (pairs & imps & _ & _ & _ & B).
    eapply IH; [exact Z|]. cbn [gb_pkg]. rewrite B. destruct (add_imports_rest (references (argument_map args) ++ imps) b) as (-> & _ & _). exact A'.
  - eapply IH; [exact Z|]. destruct (add_import_rest i s b) as (-> & _ & _). exact A'.
  - eapply IH; [|exact A']. apply errors_zero_app. split; [exact Z|]. destruct r as [[| |] m]; [| |cbn in NE; congruence]; repeat constructor; discriminate.
Qed.

(** * Markdown *)

Lemma emit_md_spec t tmpl args b reports b' reports' : emit_md t tmpl args b reports = (b', reports') ->
  (exists more, reports' = (reports ++ more)%list) /\ mb_file b' = mb_file b /\
  (errors_in reports' 0 -> exists text imports, rendered t shown_plain tmpl args text imports /\ mb_code b' = (mb_code b ++ text ++ newline)%string).
Proof.
  unfold emit_md. cbv zeta. destruct (Nat.eqb_spec (length args mod 2) 0) as [E|E]; cbn [negb].
  2: { intros H. injection H as <- <-. split; [eauto|]. split; [reflexivity|]. intros Z. apply errors_zero_app in Z. destruct Z as [_ Z]. now apply errors_one in Z. }
  destruct (Nat.ltb_spec 0 (error_count (reports ++ check_keys tmpl 0 args)%list)) as [L|L].
  { intros H. injection H as <- <-. split; [eauto|]. split; [reflexivity|]. intros Z. apply errors_zero in Z. lia. }
  assert (Z : error_count (reports ++ check_keys tmpl 0 args)%list = 0) by lia. rewrite error_count_app in Z.
  destruct (check_keys_errors tmpl args 0 E ltac:(lia)) as (pairs & K). destruct (keyed_pairs _ _ K) as (_ & _ & C). rewrite C, app_nil_r.
  destruct (data_spec shown_plain plain_value args pairs plain_shown K) as (N & D). cbv zeta in N, D.
  set (data := map (fun p : string * argument => (fst p, plain_value (snd p))) (argument_map args)) in *.
  destruct (t tmpl data) as [[text imports]|[[|n] m]] eqn:R.
  - intros H. injection H as <- <-. split; [exists []; now rewrite app_nil_r|]. split; [reflexivity|]. intros _. exists text, imports.
    split; [|reflexivity]. exists pairs, data. auto.
  - intros H. injection H as <- <-. split; [eauto|]. split; [reflexivity|]. intros Q. apply errors_zero_app in Q. destruct Q as [_ Q]. now apply errors_one in Q.
  - intros H. injection H as <- <-. split; [eauto|]. split; [reflexivity|]. intros Q. apply errors_zero_app in Q. destruct Q as [_ Q]. now apply errors_one in Q.
Qed.

Lemma md_events_spec t l : forall b reports b' reports', md_events t l (b, reports) = (b', reports') ->
  (exists more, reports' = (reports ++ more)%list) /\ mb_file b' = mb_file b /\
  (errors_in reports' 0 -> exists texts imports, all_rendered t shown_plain l texts imports /\ mb_code b' = (mb_code b ++ emitted texts)%string).
Proof.
  induction l as [|e l IH]; intros b reports b' reports' H.
  - injection H as <- <-. split; [exists []; now rewrite app_nil_r|]. split; [reflexivity|]. intros _. exists [], []. split; [constructor|now rewrite sapp_nil_r].
  - cbn [md_events fold_left] in H. fold (md_events t l (md_event t (b, reports) e)) in H.
    destruct e as [tmpl args|i s|r]; cbn [md_event fst snd] in H.
    + destruct (emit_md t tmpl args b reports) as [b1 reports1] eqn:E. destruct (emit_md_spec _ _ _ _ _ _ _ E) as ((m1 & M1) & F1 & S).
      apply IH in H. destruct H as ((m & M) & F & Q). split; [exists (m1 ++ m)%list; subst; now rewrite app_assoc|]. split; [congruence|]. intros Z.
      destruct (Q Z) as (texts & imports & A & C). assert (Z1 : errors_in reports1 0) by (rewrite M in Z; apply errors_zero_app in Z; tauto).
      destruct (S Z1) as (text & ims & R & C1). exists (text :: texts), (ims ++ imports)%list. split; [now constructor|].
      now rewrite C, C1, emitted_cons, !sapp_assoc.
    + apply IH in H. destruct H as (M & F & Q). split; [exact M|]. split; [exact F|]. intros Z. destruct (Q Z) as (texts & imports & A & C).
      exists texts, imports. split; [now constructor|exact C].
    + apply IH in H. destruct H as ((m & M) & F & Q). split; [exists (r :: m); subst; now rewrite <- app_assoc|]. split; [exact F|]. intros Z.
      destruct (Q Z) as (texts & imports & A & C). exists texts, imports. split; [|exact C]. constructor; [|exact A].
      subst reports'. apply errors_zero_app in Z. destruct Z as [Z _]. apply errors_zero_app in Z. destruct Z as [_ Z].
      destruct r as [sv x]. cbn. intros ->. now apply errors_one in Z.
Qed.

Lemma md_complete t l output file reports b reports' sys fs reports'' fs' :
  md_events t l (new_md_buffer output file, reports) = (b, reports') -> write_md sys b reports' fs = (None, reports'', fs') ->
  exists texts more lines, all_rendered t shown_plain l texts more /\ text_lines (emitted texts) lines /\
    (Forall short lines -> exists r, Forall2 cleaned lines r /\ mget (path_join [output; file ++ ".md"]) fs' = Some (terminated r)) /\
    only_changes (path_join [output; file ++ ".md"]) fs fs'.
Proof.
  intros H W. destruct (md_events_spec _ _ _ _ _ _ H) as (_ & F & Q). cbn [new_md_buffer mb_file mb_code] in F, Q.
  assert (Z : errors_in reports' 0).
  { revert W. unfold write_md. cbv zeta. rewrite count_info. pose proof (errors_found_says reports') as G. now destruct (errors_found _). }
  destruct (Q Z) as (texts & more & A & C). cbn [append] in C. destruct (lines_exist (emitted texts)) as (lines & T).
  exists texts, more, lines. split; [exact A|]. split; [exact T|]. split.
  - intros S. destruct (markdown_cleaned _ _ T S) as (r & R & _ & D). exists r. split; [exact D|].
    revert W. unfold write_md. cbv zeta. rewrite count_info, (errors_found_zero _ Z). destruct (sys_mkdir _ _); [discriminate|]. destruct (sys_open _ _); [discriminate|].
    intros W. injection W as _ <-. rewrite F, mget_mset_same, C, R. reflexivity.
  - rewrite <- F. eapply md_only_changes, W.
Qed.

Lemma md_no_errors t l : unordered t -> forall b reports texts more, errors_in reports 0 -> all_rendered t shown_plain l texts more ->
  errors_in (snd (md_events t l (b, reports))) 0.
Proof.
  intros U. induction l as [|e l IH]; intros b reports texts more Z A; [exact Z|].
  cbn [md_events fold_left]. fold (md_events t l (md_event t (b, reports) e)). inversion A as [|tmpl args text ims l' texts' more' R A'|i s l' texts' more' A'|r l' texts' more' NE A']; subst; cbn [md_event fst snd].
  - assert (E : exists b', emit_md t tmpl args b reports = (b', reports)).
    { destruct R as (pairs & data' & K & R & N' & D'). destruct (keyed_pairs _ _ K) as (_ & E & C). unfold emit_md. cbv zeta.
      rewrite E. cbn [Nat.eqb negb]. rewrite C, app_nil_r. pose proof Z as Z'. apply errors_zero in Z'. rewrite Z'. cbn [Nat.ltb Nat.leb].
      destruct (data_spec shown_plain plain_value args pairs plain_shown K) as (N & D). cbv zeta in N, D.
      rewrite (U tmpl _ data' N N' (data_same _ _ _ _ D D')), R. eauto. }
    destruct E as (b' & E). rewrite E. eapply IH; eassumption.
  - eapply IH; eassumption.
  - eapply IH; [|exact A']. apply errors_zero_app. split; [exact Z|]. destruct r as [[| |] m]; [| |cbn in NE; congruence]; repeat constructor; discriminate.
Qed.

(** * The order of the events *)

(** Errors are never forgotten. *)
Lemma go_reports_kept t l b reports : exists more, snd (go_events t l (b, reports)) = (reports ++ more)%list.
Proof. destruct (go_events t l (b, reports)) as [b' r] eqn:E. apply go_events_spec in E. tauto. Qed.
Lemma md_reports_kept t l b reports : exists more, snd (md_events t l (b, reports)) = (reports ++ more)%list.
Proof. destruct (md_events t l (b, reports)) as [b' r] eqn:E. apply md_events_spec in E. tauto. Qed.

Lemma other_files :
  (forall sys header order b reports fs, only_changes (gb_file b) fs (snd (write_go sys header order b reports fs))) /\
  (forall sys b reports fs, only_changes (mb_file b) fs (snd (write_md sys b reports fs))) /\
  (forall sys output content reports fs, only_changes output fs (snd (write_openapi sys output content reports fs))).
Proof.
  split; [|split].
  - intros sys header order b reports fs. destruct (write_go _ _ _ _ _ _) as [[e r] f] eqn:E. eapply go_only_changes, E.
  - intros sys b reports fs. destruct (write_md _ _ _ _) as [[e r] f] eqn:E. eapply md_only_changes, E.
  - intros sys output content reports fs. destruct (write_openapi _ _ _ _ _) as [[e r] f] eqn:E. eapply openapi_only_changes, E.
Qed.

Lemma all_refused : forall reports n, errors_in reports n -> 0 < n ->
  (forall sys header order b fs, exists m r, write_go sys header order b reports fs = (Some m, r, fs) /\ says n m) /\
  (forall sys b fs, exists m r, write_md sys b reports fs = (Some m, r, fs) /\ says n m) /\
  (forall sys output content fs, exists m r, write_openapi sys output content reports fs = (Some m, r, fs) /\ says n m) /\
  (forall versions, exists m, write_model versions reports = (Some m, reports) /\ says n m).
Proof.
  intros reports n E P. split; [|split; [|split]]; intros.
  - destruct (go_refused sys header order b reports fs n E P) as (m & H & S). eauto.
  - destruct (md_refused sys b reports fs n E P) as (m & H & S). eauto.
  - destruct (openapi_refused sys output content reports fs n E P) as (m & H & S). eauto.
  - now apply model_refused.
Qed.
