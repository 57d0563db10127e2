(** Proofs about the commands. *)
From Coq Require Import Ascii String Bool Arith ZArith Lia List Permutation Sorted.
From Verif Require Import GoStrings GoStringsProofs GoMap GoMapProofs NamesModel NamesSpec NamesProofs ConceptsModel ConceptsSpec ReporterModel ReaderModel ReaderSpec ReaderProofs6 ReaderProofs7
  ReaderProofs10 GoNamesModel ObjectsSpec SyntaxModel BufferModel BufferSpec BufferProofs JsonModel JsonSpec JsonTextModel JsonTextSpec ChecksModel ChecksSpec LoopsProofs PathsProofs JsonProofs2 OpenapiModel OpenapiSpec
  OpenapiProofs OpenapiProofs5 OpenapiProofs6 DocsModel DocsSpec DocsProofs2 DocsProofs3 ToolModel ToolSpec ToolProofs.
Import ListNotations.
Local Open Scope string_scope.

(** * The specifications of an accepted model, whatever the reports are *)

Lemma model_specs sys output inputs rs0 m rs :
  (forall d, sys_mkdir sys d = None) -> (forall f, sys_open sys f = None) ->
  read inputs rs0 = Done (ROk m, rs) ->
  (forall s v k t, in_model m s -> in_service s v -> type_at k v = Some t -> t_kind t <> UndefinedType) ->
  exists n, forall fuel fs rs1, (n <= fuel)%nat -> errors_in rs1 0 -> exists reports' fs', run_openapi sys fuel output m rs1 fs = Done (None, reports', fs') /\ errors_in reports' 0 /\
    (forall p, (forall s v, in_model m s -> in_service s v -> p <> spec_path output s v) -> mget p fs' = mget p fs) /\
    (forall s v, in_model m s -> in_service s v -> exists s' v' reports0 fs0 text j, in_model m s' /\ in_service s' v' /\
       spec_path output s' v' = spec_path output s v /\ mget (spec_path output s v) fs' = Some text /\ json_document text j /\
       published sys fuel output s' v' reports0 fs0 j).
Proof.
  intros MK OP E D.
  set (l := flat_map (fun s => map (fun v => (s, v)) (versions s)) (services m)).
  assert (IL : forall s v, In (s, v) l <-> in_model m s /\ in_service s v).
  { destruct (returned_indexed _ _ _ _ E) as [I1 I2]. intros s v. unfold l. rewrite in_flat_map. split.
    - intros (s0 & IS & IV). apply in_map_iff in IV as (v0 & [= -> ->] & IV). assert (in_model m s) by now apply services_in. split; [assumption|].
      apply versions_in; [now apply I2|assumption].
    - intros [Hs Hv]. exists s. split; [now apply services_in|]. apply in_map_iff. exists v. split; [reflexivity|]. apply versions_in; [now apply I2|assumption]. }
  destruct (specs_succeed sys output l) as (n & N).
  { intros s v I. apply IL in I as [Hs Hv]. destruct (returned_no_loops _ _ _ _ _ _ E Hs Hv) as ((r & R) & DE & TE & NL).
    apply (spec_succeeds sys output s v r); auto. apply (returned_expressible _ _ _ _ _ _ E Hs Hv). intros k t. now apply (D s v). }
  exists n. intros fuel fs rs1 L NE. destruct (N fuel rs1 fs L NE) as (r' & f' & G & Z & FR & W). exists r', f'. split; [exact G|]. split; [assumption|]. split.
  - intros p NP. apply FR. intros s v I. apply IL in I as [Hs Hv]. now apply NP.
  - intros s v Hs Hv. destruct (W s v) as (s' & v' & r0 & f0 & tx & j & I & R); [now apply IL|]. apply IL in I as [Hs' Hv'].
    exists s', v', r0, f0, tx, j. auto.
Qed.

(** * The reports *)

Lemma last_error l m : ~ errors_in (l ++ [err m])%list 0.
Proof. rewrite no_count, error_count_app, error_count_err. lia. Qed.

Lemma errors_found_zero n : errors_found n = None -> n = 0%nat.
Proof. unfold errors_found. destruct (Nat.ltb_spec 0 n); [destruct (Nat.ltb 1 n); discriminate|]. intros _. lia. Qed.

Lemma write_page_clean sys output page text rs fs rs' fs' : write_page sys output page text rs fs = (None, rs', fs') -> errors_in rs' 0.
Proof.
  unfold write_page, write_md. cbv zeta. generalize (if Nat.ltb 0 (error_count rs) then new_md_buffer output page else MkMdBuffer (mb_file (new_md_buffer output page)) (mb_code (new_md_buffer output page) ++ text ++ newline)). intros b.
  destruct (errors_found _) eqn:E; [discriminate|]. destruct (sys_mkdir _ _); [discriminate|]. destruct (sys_open _ _); [discriminate|].
  intros H. assert (Q : rs' = (rs ++ [info ("Writing file '" ++ mb_file b ++ "'")])%list) by congruence. rewrite Q. apply no_count. now apply errors_found_zero.
Qed.

Lemma write_pages_clean sys output l : forall rs fs rs' fs', errors_in rs 0 -> write_pages sys output l rs fs = (None, rs', fs') -> errors_in rs' 0.
Proof.
  induction l as [|[page text] l IH]; intros rs fs rs' fs' N E; [injection E as <- _; exact N|]. cbn [write_pages] in E.
  destruct (write_page sys output page text rs fs) as [[[e|] rs1] fs1] eqn:W; [discriminate|]. eapply IH; [|exact E]. eapply write_page_clean; eauto.
Qed.

Lemma docs_clean sys output m rs fs rs' fs' : errors_in rs 0 -> generate_docs sys output m rs fs = (None, rs', fs') -> errors_in rs' 0.
Proof. apply write_pages_clean. Qed.

Lemma generate_spec_clean sys fuel output s v rs fs rs' fs' : generate_spec sys fuel output s v rs fs = Done (None, rs', fs') -> errors_in rs' 0.
Proof.
  unfold generate_spec. generalize (generate_spec_source fuel s v) as src. intros src.
  destruct (execute_all src _) as [b| |]; [|intros W; discriminate W|intros W; discriminate W].
  generalize (path_join [output; openapi_file_name s v]) as p, (write_tokens 0 (ob_tokens b)) as c. intros p c W.
  assert (W' : write_openapi sys p c (ob_reports b) fs = (None, rs', fs')) by congruence. clear W. revert W'. unfold write_openapi.
  destruct (errors_found _) eqn:E; [discriminate|]. destruct (sys_mkdir _ _); [discriminate|]. cbv zeta. destruct (sys_open _ _); [discriminate|].
  intros H. assert (Q : rs' = (ob_reports b ++ [info ("Writing file '" ++ p ++ "'")])%list) by congruence. rewrite Q. apply no_count.
  rewrite error_count_app, error_count_info. apply errors_found_zero in E. lia.
Qed.

Lemma generate_specs_eq sys fuel output s v l rs fs : generate_specs sys fuel output ((s, v) :: l) rs fs =
  match generate_spec sys fuel output s v rs fs with Done (None, rs, fs) => generate_specs sys fuel output l rs fs | r => r end.
Proof. reflexivity. Qed.

Lemma generate_specs_clean sys fuel output l : forall rs fs rs' fs', errors_in rs 0 -> generate_specs sys fuel output l rs fs = Done (None, rs', fs') -> errors_in rs' 0.
Proof.
  induction l as [|[s v] l IH]; intros rs fs rs' fs' N E; [injection E as <- _; exact N|]. rewrite generate_specs_eq in E. revert E.
  destruct (generate_spec sys fuel output s v rs fs) as [[[[e|] rs1] fs1]| |] eqn:W; intros E; [discriminate E| |discriminate E|discriminate E]. eapply IH; [|exact E].
  exact (generate_spec_clean _ _ _ _ _ _ _ _ _ W).
Qed.

Lemma run_openapi_clean sys fuel output m rs fs rs' fs' : errors_in rs 0 -> run_openapi sys fuel output m rs fs = Done (None, rs', fs') -> errors_in rs' 0.
Proof. apply generate_specs_clean. Qed.

(** * The options *)

Lemma options2 (a b : bool) na nb : (missing_option na a ++ missing_option nb b)%list = [] <-> a = false /\ b = false.
Proof. unfold missing_option. destruct a, b; cbn; split; intuition discriminate. Qed.

Lemma options3 (a b c : bool) na nb nc : (missing_option na a ++ missing_option nb b ++ missing_option nc c)%list = [] <-> a = false /\ b = false /\ c = false.
Proof. unfold missing_option. destruct a, b, c; cbn; split; intuition discriminate. Qed.

Lemma no_paths_false l : no_paths l = false <-> l <> [].
Proof. destruct l; cbn; split; intuition discriminate. Qed.

Lemma missing_errors n b : missing_option n b <> [] -> ~ errors_in (missing_option n b) 0.
Proof. unfold missing_option. destruct b; [|intros H; now destruct H]. intros _. rewrite no_count, error_count_err. lia. Qed.

Lemma app_errors a b : ~ errors_in a 0 \/ ~ errors_in b 0 -> ~ errors_in (a ++ b)%list 0.
Proof. rewrite !no_count, error_count_app. lia. Qed.

Lemma missing_errors2 na a nb b : (missing_option na a ++ missing_option nb b)%list <> [] -> ~ errors_in (missing_option na a ++ missing_option nb b)%list 0.
Proof.
  intros H. apply app_errors. destruct a; [left; now apply missing_errors|]. destruct b; [right; now apply missing_errors|]. now destruct H.
Qed.

Lemma missing_errors3 na a nb b nc c : (missing_option na a ++ missing_option nb b ++ missing_option nc c)%list <> [] ->
  ~ errors_in (missing_option na a ++ missing_option nb b ++ missing_option nc c)%list 0.
Proof.
  intros H. apply app_errors. destruct a; [left; now apply missing_errors|]. right. now apply missing_errors2.
Qed.

Section Commands.
  Context (recover : string -> list report * outcome (list decl)) (lookup : string -> found).

  (** * What all the commands have *)

  Lemma with_model_inv options paths fs next code rs fs' : with_model recover lookup options paths fs next = Exit code rs fs' ->
    (options <> [] /\ code = 1%nat /\ rs = options /\ fs' = fs) \/
    (options = [] /\ exists e rs0, read_paths recover lookup paths [] = Done (RError e, rs0) /\ code = 1%nat /\ rs = (rs0 ++ [err ("Can't read model: " ++ e)])%list /\ fs' = fs) \/
    (options = [] /\ exists m rs0, read_paths recover lookup paths [] = Done (ROk m, rs0) /\ next m rs0 = Exit code rs fs').
  Proof.
    unfold with_model. destruct options as [|o options].
    - destruct (read_paths recover lookup paths []) as [[[m|e] rs0]| |]; try discriminate; intros H.
      + right. right. split; [reflexivity|]. eauto.
      + right. left. split; [reflexivity|]. exists e, rs0. split; [reflexivity|]. split; [congruence|]. split; congruence.
    - intros H. left. split; [discriminate|]. split; [congruence|]. split; congruence.
  Qed.

  Lemma with_model_ok options paths fs next m rs : options = [] -> read_paths recover lookup paths [] = Done (ROk m, rs) -> with_model recover lookup options paths fs next = next m rs.
  Proof. intros -> E. unfold with_model. now rewrite E. Qed.

  Lemma refused options paths fs next code rs fs' : reports_syntax recover -> proper lookup -> options <> [] \/ (forall m, ~ accepted lookup paths m) ->
    with_model recover lookup options paths fs next = Exit code rs fs' -> code = 1%nat /\ fs' = fs.
  Proof.
    intros R P H E. destruct (with_model_inv _ _ _ _ _ _ _ E) as [(_ & -> & _ & ->)|[(_ & e & rs0 & _ & -> & _ & ->)|(-> & m & rs0 & Q & _)]]; auto.
    exfalso. destruct H as [H|H]; [now apply H|]. apply (H m). eapply read_accepted; eauto.
  Qed.

  (** * The check *)

  Lemma check_ends paths fs code rs fs' : check_command recover lookup paths fs = Exit code rs fs' ->
    fs' = fs /\ ((code = 0%nat /\ errors_in rs 0) \/ (code = 1%nat /\ ~ errors_in rs 0)).
  Proof.
    unfold check_command. destruct (missing_option "model" (no_paths paths)) as [|o l] eqn:O.
    - destruct (read_paths recover lookup paths []) as [[[m|e] rs0]| |] eqn:E; try discriminate; intros H.
      + assert (Q : 0%nat = code /\ (rs0 ++ [info "Check succeeded"])%list = rs /\ fs = fs') by (split; [congruence|split; congruence]).
        destruct Q as (<- & <- & <-). split; [reflexivity|]. left. split; [reflexivity|]. apply no_count. rewrite error_count_app, error_count_info.
        rewrite (read_paths_fine _ _ _ _ _ _ E). reflexivity.
      + assert (Q : 1%nat = code /\ (rs0 ++ [err ("Check failed: " ++ e)])%list = rs /\ fs = fs') by (split; [congruence|split; congruence]).
        destruct Q as (<- & <- & <-). split; [reflexivity|]. right. split; [reflexivity|]. apply last_error.
    - intros H. assert (Q : 1%nat = code /\ o :: l = rs /\ fs = fs') by (split; [congruence|split; congruence]).
      destruct Q as (<- & <- & <-). split; [reflexivity|]. right. split; [reflexivity|]. rewrite <- O. apply missing_errors. rewrite O. discriminate.
  Qed.

  Lemma check_accepts paths fs : reports_syntax recover -> proper lookup ->
    (exists rs, check_command recover lookup paths fs = Exit 0 rs fs) <-> paths <> [] /\ exists m, accepted lookup paths m.
  Proof.
    intros R P. split.
    - intros [rs H]. unfold check_command in H. destruct (no_paths paths) eqn:N; [cbn in H; discriminate|]. apply no_paths_false in N. split; [exact N|]. cbn [missing_option] in H.
      destruct (read_paths recover lookup paths []) as [[[m|e] rs0]| |] eqn:E; try discriminate. exists m. eapply read_accepted; eauto.
    - intros [N [m A]]. destruct (accepted_read recover lookup _ _ A) as (rs & E & _). exists (rs ++ [info "Check succeeded"])%list.
      unfold check_command. apply no_paths_false in N. rewrite N. cbn [missing_option]. rewrite E. reflexivity.
  Qed.

  (** * The documentation and the specifications *)

  Lemma generated_ends r code rs fs : generated r = Exit code rs fs -> (forall rs0 fs0, r = (None, rs0, fs0) -> errors_in rs0 0) ->
    (code = 0%nat /\ errors_in rs 0) \/ (code = 1%nat /\ ~ errors_in rs 0).
  Proof.
    destruct r as [[[e|] rs0] fs0]; cbn [generated]; intros H C.
    - right. assert (Q : 1%nat = code /\ (rs0 ++ [err ("Generation failed: " ++ e)])%list = rs) by (split; congruence). destruct Q as [<- <-]. split; [reflexivity|]. apply last_error.
    - left. assert (Q : 0%nat = code /\ rs0 = rs) by (split; congruence). destruct Q as [<- <-]. split; [reflexivity|]. eapply C; eauto.
  Qed.

  Lemma generated_zero r rs fs : generated r = Exit 0 rs fs <-> r = (None, rs, fs).
  Proof. destruct r as [[[e|] rs0] fs0]; cbn [generated]; split; intros H; congruence. Qed.

  Lemma docs_ends sys paths output fs code rs fs' : docs_command recover lookup sys paths output fs = Exit code rs fs' ->
    (code = 0%nat /\ errors_in rs 0) \/ (code = 1%nat /\ ~ errors_in rs 0).
  Proof.
    intros E. destruct (with_model_inv _ _ _ _ _ _ _ E) as [(N & -> & -> & ->)|[(_ & e & rs0 & _ & -> & -> & ->)|(_ & m & rs0 & Q & G)]].
    - right. split; [reflexivity|]. now apply missing_errors2.
    - right. split; [reflexivity|]. apply last_error.
    - eapply generated_ends; [exact G|]. intros rs1 fs1. apply docs_clean. apply no_count. now apply read_paths_fine in Q.
  Qed.

  Lemma openapi_ends sys fuel paths output fs code rs fs' : openapi_command recover lookup sys fuel paths output fs = Exit code rs fs' ->
    (code = 0%nat /\ errors_in rs 0) \/ (code = 1%nat /\ ~ errors_in rs 0).
  Proof.
    intros E. destruct (with_model_inv _ _ _ _ _ _ _ E) as [(N & -> & -> & ->)|[(_ & e & rs0 & _ & -> & -> & ->)|(_ & m & rs0 & Q & G)]].
    - right. split; [reflexivity|]. now apply missing_errors2.
    - right. split; [reflexivity|]. apply last_error.
    - cbv beta in G. destruct (run_openapi sys fuel output m rs0 fs) as [r| |] eqn:RO; try discriminate.
      eapply generated_ends; [exact G|]. intros rs1 fs1 ->. eapply run_openapi_clean; [|exact RO]. apply no_count. now apply read_paths_fine in Q.
  Qed.

  Lemma eqb_empty s : String.eqb s "" = false <-> s <> "".
  Proof. rewrite String.eqb_neq. reflexivity. Qed.

  Lemma docs_zero sys paths output fs rs fs' : reports_syntax recover -> proper lookup ->
    docs_command recover lookup sys paths output fs = Exit 0 rs fs' ->
    paths <> [] /\ output <> "" /\ exists m rs0, accepted lookup paths m /\ errors_in rs0 0 /\ generate_docs sys output m rs0 fs = (None, rs, fs').
  Proof.
    intros R P E. destruct (with_model_inv _ _ _ _ _ _ _ E) as [(_ & X & _)|[(_ & e & rs0 & _ & X & _)|(O & m & rs0 & Q & G)]]; [discriminate|discriminate|].
    apply options2 in O as [O1 O2]. apply no_paths_false in O1. apply eqb_empty in O2. split; [exact O1|]. split; [exact O2|]. exists m, rs0.
    split; [eapply read_accepted; eauto|]. split; [apply no_count; now apply read_paths_fine in Q|]. now apply generated_zero in G.
  Qed.

  Lemma docs_run sys paths output fs m : paths <> [] -> output <> "" -> accepted lookup paths m ->
    exists rs0, errors_in rs0 0 /\ docs_command recover lookup sys paths output fs = generated (generate_docs sys output m rs0 fs).
  Proof.
    intros N O A. destruct (accepted_read recover lookup _ _ A) as (rs & E & Z). exists rs. split; [exact Z|]. unfold docs_command.
    rewrite (with_model_ok _ _ _ _ m rs); [reflexivity| |exact E]. apply options2. split; [now apply no_paths_false|now apply eqb_empty].
  Qed.

  Lemma openapi_zero sys fuel paths output fs rs fs' : reports_syntax recover -> proper lookup ->
    openapi_command recover lookup sys fuel paths output fs = Exit 0 rs fs' ->
    paths <> [] /\ output <> "" /\ exists m rs0, accepted lookup paths m /\ errors_in rs0 0 /\ run_openapi sys fuel output m rs0 fs = Done (None, rs, fs').
  Proof.
    intros R P E. destruct (with_model_inv _ _ _ _ _ _ _ E) as [(_ & X & _)|[(_ & e & rs0 & _ & X & _)|(O & m & rs0 & Q & G)]]; [discriminate|discriminate|].
    apply options2 in O as [O1 O2]. apply no_paths_false in O1. apply eqb_empty in O2. split; [exact O1|]. split; [exact O2|]. exists m, rs0.
    split; [eapply read_accepted; eauto|]. split; [apply no_count; now apply read_paths_fine in Q|]. cbv beta in G.
    destruct (run_openapi sys fuel output m rs0 fs) as [r| |]; try discriminate. apply generated_zero in G. now rewrite G.
  Qed.

  Lemma openapi_publishes sys paths output m : (forall d, sys_mkdir sys d = None) -> (forall f, sys_open sys f = None) ->
    paths <> [] -> output <> "" -> accepted lookup paths m ->
    (forall s v k t, in_model m s -> in_service s v -> type_at k v = Some t -> t_kind t <> UndefinedType) ->
    exists n, forall fuel fs, (n <= fuel)%nat -> exists rs fs', openapi_command recover lookup sys fuel paths output fs = Exit 0 rs fs' /\ errors_in rs 0 /\
      (forall p, (forall s v, in_model m s -> in_service s v -> p <> spec_path output s v) -> mget p fs' = mget p fs) /\
      (forall s v, in_model m s -> in_service s v -> exists s' v' reports0 fs0 text j, in_model m s' /\ in_service s' v' /\
         spec_path output s' v' = spec_path output s v /\ mget (spec_path output s v) fs' = Some text /\ json_document text j /\
         published sys fuel output s' v' reports0 fs0 j).
  Proof.
    intros MK OP N O A D. destruct (accepted_read recover lookup _ _ A) as (rs & E & Z). destruct A as (inputs & rs' & _ & RD).
    destruct (model_specs sys output inputs [] m rs' MK OP RD D) as (n & H). exists n. intros fuel fs L.
    destruct (H fuel fs rs L Z) as (r & f & G & Z' & FR & W). exists r, f. split; [|auto]. unfold openapi_command.
    rewrite (with_model_ok _ _ _ _ m rs); [cbv beta; rewrite G; reflexivity| |exact E]. apply options2. split; [now apply no_paths_false|now apply eqb_empty].
  Qed.

  (** * The Go code *)

  Section Go.
    Context (generate : go_generator -> string -> string -> model -> list report -> files -> option string * list report * files).
    Context (sources : string -> files -> list string + string).
    Context (goimports : list string -> files -> option string * files).

    Lemma run_generators_none base output m l : forall rs fs rs' fs', run_generators generate l base output m rs fs = (None, rs', fs') <->
      all_succeed (fun g => generate g base output m) l rs fs rs' fs'.
    Proof.
      induction l as [|g l IH]; intros rs fs rs' fs'; cbn [run_generators]; split.
      - intros H. injection H as <- <-. constructor.
      - intros H. inversion H; subst. reflexivity.
      - destruct (generate g base output m rs fs) as [[[e|] rs1] fs1] eqn:G; intros H; [discriminate|]. eapply as_cons; [exact G|]. now apply IH.
      - intros H. inversion H as [|g0 l0 a b rs1 fs1 c d G1 G2]; subst. cbv beta in G1. rewrite G1. now apply IH.
    Qed.

    Lemma run_generators_some base output m l : forall rs fs e rs' fs', run_generators generate l base output m rs fs = (Some e, rs', fs') ->
      exists before g after rs1 fs1, l = (before ++ g :: after)%list /\ all_succeed (fun g => generate g base output m) before rs fs rs1 fs1 /\
        generate g base output m rs1 fs1 = (Some e, rs', fs').
    Proof.
      induction l as [|g l IH]; intros rs fs e rs' fs' H; cbn [run_generators] in H; [discriminate|].
      destruct (generate g base output m rs fs) as [[[x|] rs1] fs1] eqn:G.
      - exists [], g, l, rs, fs. split; [reflexivity|]. split; [constructor|]. congruence.
      - destruct (IH _ _ _ _ _ H) as (before & g' & after & rs2 & fs2 & -> & A & F). exists (g :: before), g', after, rs2, fs2. split; [reflexivity|].
        split; [|exact F]. eapply as_cons; [exact G|exact A].
    Qed.

    Definition string_less (a b : string) : bool := Z.ltb (str_compare a b) 0.
    Lemma string_trans a b c : string_less a b = true -> string_less b c = true -> string_less a c = true.
    Proof. unfold string_less. rewrite !str_less. apply str_lt_trans. Qed.
    Lemma string_irrefl a : string_less a a = false.
    Proof. destruct (string_less a a) eqn:E; auto. apply str_less in E. now apply str_lt_irrefl in E. Qed.

    Lemma strings_separated l : NoDup l -> GoMapProofs.separated string_less l.
    Proof.
      induction 1 as [|a l N D IH]; constructor; auto. apply Forall_forall. intros b I. unfold string_less. rewrite !str_less.
      destruct (str_compare_range a b) as [H|[H|H]].
      - left. now apply str_compare_lt.
      - apply str_compare_eq in H. subst b. contradiction.
      - right. apply str_compare_lt. rewrite str_compare_opp, H. reflexivity.
    Qed.

    Lemma sorted_strings l l' : NoDup l -> (Permutation l l' /\ StronglySorted str_lt l') <-> l' = sort string_less l.
    Proof.
      intros N. split.
      - intros [P S]. apply (sort_unique string_less string_trans string_irrefl); [now apply strings_separated|exact P|].
        eapply sorted_impl; [|exact S]. intros a b. apply str_less.
      - intros ->. split; [apply sort_perm|]. apply (sorted_impl (fun a b => string_less a b = true)); [intros a b; apply str_less|].
        exact (sort_sorted string_less string_trans l (strings_separated l N)).
    Qed.

    Lemma go_zero paths base output fs fs' : reports_syntax recover -> proper lookup -> (forall o f l, sources o f = inl l -> NoDup l) ->
      (exists rs, go_command recover lookup generate sources goimports paths base output fs = Exit 0 rs fs') <->
      paths <> [] /\ base <> "" /\ output <> "" /\ exists m rs0 rs1 fs1 l l', accepted lookup paths m /\ read_paths recover lookup paths [] = Done (ROk m, rs0) /\
        all_succeed (fun g => generate g base output m) [GoErrors; GoHelpers; GoTypes; GoBuilders; GoClients; GoJson; GoMetrics; GoOpenapi] rs0 fs rs1 fs1 /\
        sources output fs1 = inl l /\ Permutation l l' /\ StronglySorted str_lt l' /\ goimports l' fs1 = (None, fs').
    Proof.
      intros R P ND. split.
      - intros [rs E]. destruct (with_model_inv _ _ _ _ _ _ _ E) as [(_ & X & _)|[(_ & e & rs0 & _ & X & _)|(O & m & rs0 & Q & G)]]; [discriminate|discriminate|].
        apply options3 in O as (O1 & O2 & O3). apply no_paths_false in O1. apply eqb_empty in O2, O3. split; [exact O1|]. split; [exact O2|]. split; [exact O3|].
        cbv beta in G. destruct (run_generators _ _ _ _ _ _ _) as [[[e|] rs1] fs1] eqn:RG; [discriminate|]. apply run_generators_none in RG.
        unfold format_sources in G. cbv zeta in G. destruct (sources output fs1) as [l|e] eqn:SO; [|discriminate].
        destruct (goimports (sort _ l) fs1) as [[e|] fs2] eqn:GI; [discriminate|]. assert (fs2 = fs') by congruence. subst fs2.
        destruct (proj2 (sorted_strings l (sort string_less l) (ND _ _ _ SO)) eq_refl) as [PM SS].
        exists m, rs0, rs1, fs1, l, (sort string_less l). split; [eapply read_accepted; eauto|]. auto 8.
      - intros (O1 & O2 & O3 & m & rs0 & rs1 & fs1 & l & l' & _ & E & A & SO & PM & SS & GI).
        rewrite (proj1 (sorted_strings l l' (ND _ _ _ SO)) (conj PM SS)) in GI. apply run_generators_none in A. eexists. unfold go_command.
        rewrite (with_model_ok _ _ _ _ m rs0); [| |exact E].
        + cbv beta. unfold go_generators. rewrite A. unfold format_sources. cbv zeta. rewrite SO.
          change (fun a b : string => Z.ltb (str_compare a b) 0) with string_less. rewrite GI. reflexivity.
        + apply options3. split; [now apply no_paths_false|]. split; now apply eqb_empty.
    Qed.

    Lemma go_ends paths base output fs code rs fs' : go_command recover lookup generate sources goimports paths base output fs = Exit code rs fs' ->
      code = 0%nat \/ (code = 1%nat /\ ~ errors_in rs 0).
    Proof.
      intros E. destruct (with_model_inv _ _ _ _ _ _ _ E) as [(N & -> & -> & ->)|[(_ & e & rs0 & _ & -> & -> & ->)|(_ & m & rs0 & Q & G)]].
      - right. split; [reflexivity|]. now apply missing_errors3.
      - right. split; [reflexivity|]. apply last_error.
      - cbv beta in G. destruct (run_generators _ _ _ _ _ _ _) as [[[e|] rs1] fs1] eqn:RG.
        + right. assert (X : 1%nat = code /\ (rs1 ++ [err ("Generation failed: " ++ e)])%list = rs) by (split; congruence). destruct X as [<- <-]. split; [reflexivity|]. apply last_error.
        + unfold format_sources in G. cbv zeta in G. destruct (sources output fs1) as [l|e].
          * destruct (goimports (sort _ l) fs1) as [[e|] fs2]; [|left; congruence]. right.
            assert (X : 1%nat = code /\ ((rs1 ++ [info "Formatting generated files"]) ++ [err ("Can't format generated sources: " ++ e)])%list = rs) by (split; congruence).
            destruct X as [<- <-]. split; [reflexivity|]. apply last_error.
          * right. assert (X : 1%nat = code /\ ((rs1 ++ [info "Formatting generated files"]) ++ [err ("Can't collect generated sources: " ++ e)])%list = rs) by (split; congruence).
            destruct X as [<- <-]. split; [reflexivity|]. apply last_error.
    Qed.

    (** When a generator fails the following ones don't run, and the code isn't formatted. *)
    Lemma go_stops paths base output fs m rs0 before g after rs1 fs1 e rs2 fs2 : paths <> [] -> base <> "" -> output <> "" ->
      read_paths recover lookup paths [] = Done (ROk m, rs0) -> go_generators = (before ++ g :: after)%list ->
      all_succeed (fun g => generate g base output m) before rs0 fs rs1 fs1 -> generate g base output m rs1 fs1 = (Some e, rs2, fs2) ->
      go_command recover lookup generate sources goimports paths base output fs = Exit 1 (rs2 ++ [err ("Generation failed: " ++ e)])%list fs2.
    Proof.
      intros O1 O2 O3 E L A F. unfold go_command. rewrite (with_model_ok _ _ _ _ m rs0); [| |exact E].
      - cbv beta. rewrite L. clear L. revert rs0 fs E A. induction before as [|x before IH]; intros rs0 fs E A.
        + inversion A; subst. cbn [app run_generators]. rewrite F. reflexivity.
        + inversion A as [|g0 l0 a b rs3 fs3 c d G1 G2]; subst. cbn [app run_generators]. cbv beta in G1. rewrite G1.
          clear - G2 F. revert rs3 fs3 G2. induction before as [|x before IH]; intros rs3 fs3 G2.
          * inversion G2; subst. cbn [app run_generators]. rewrite F. reflexivity.
          * inversion G2 as [|g0 l0 a b rs4 fs4 c d G3 G4]; subst. cbn [app run_generators]. cbv beta in G3. rewrite G3. eauto.
      - apply options3. split; [now apply no_paths_false|]. split; now apply eqb_empty.
    Qed.
  End Go.
End Commands.

Lemma nothing_generated recover lookup paths fs code rs fs' : reports_syntax recover -> proper lookup ->
  (forall sys output, paths = [] \/ output = "" \/ (forall m, ~ accepted lookup paths m) ->
     docs_command recover lookup sys paths output fs = Exit code rs fs' -> code = 1%nat /\ fs' = fs) /\
  (forall sys fuel output, paths = [] \/ output = "" \/ (forall m, ~ accepted lookup paths m) ->
     openapi_command recover lookup sys fuel paths output fs = Exit code rs fs' -> code = 1%nat /\ fs' = fs) /\
  (forall generate sources goimports base output, paths = [] \/ base = "" \/ output = "" \/ (forall m, ~ accepted lookup paths m) ->
     go_command recover lookup generate sources goimports paths base output fs = Exit code rs fs' -> code = 1%nat /\ fs' = fs).
Proof.
  intros R P.
  assert (O2 : forall output, paths = [] \/ output = "" \/ (forall m, ~ accepted lookup paths m) ->
    (missing_option "model" (no_paths paths) ++ missing_option "output" (String.eqb output ""))%list <> [] \/ (forall m, ~ accepted lookup paths m)).
  { intros output [->|[->|H]]; [left; discriminate|left|now right]. intros E. apply options2 in E as [_ E]. discriminate. }
  assert (O3 : forall base output, paths = [] \/ base = "" \/ output = "" \/ (forall m, ~ accepted lookup paths m) ->
    (missing_option "model" (no_paths paths) ++ missing_option "base" (String.eqb base "") ++ missing_option "output" (String.eqb output ""))%list <> [] \/ (forall m, ~ accepted lookup paths m)).
  { intros base output [->|[->|[->|H]]]; [left; discriminate|left|left|now right]; intros E; apply options3 in E as (_ & E1 & E2); discriminate. }
  split; [|split].
  - intros sys output H. exact (refused recover lookup _ _ _ _ _ _ _ R P (O2 output H)).
  - intros sys fuel output H. exact (refused recover lookup _ _ _ _ _ _ _ R P (O2 output H)).
  - intros generate sources goimports base output H. exact (refused recover lookup _ _ _ _ _ _ _ R P (O3 base output H)).
Qed.

Lemma docs_published recover lookup sys paths output fs rs fs' : reports_syntax recover -> proper lookup ->
  docs_command recover lookup sys paths output fs = Exit 0 rs fs' -> exists m, accepted lookup paths m /\
  (good_names m ->
   (forall p, (forall page pieces, In (page, pieces) (model_pages m) -> p <> page_path output page) -> mget p fs' = mget p fs) /\
   (forall before page pieces after, model_pages m = (before ++ (page, pieces) :: after)%list -> ~ In page (map fst after) -> Forall fits pieces ->
      exists content, mget (page_path output page) fs' = Some content /\ shows pieces content)).
Proof.
  intros R P E. destruct (docs_zero recover lookup _ _ _ _ _ _ R P E) as (_ & _ & m & rs0 & A & _ & G). exists m. split; [exact A|].
  intros GN. exact (docs_pages sys output m rs0 fs rs fs' GN G).
Qed.

Lemma docs_command_succeeds recover lookup sys paths output fs m : paths <> [] -> output <> "" -> accepted lookup paths m -> good_names m ->
  (forall page pieces, In (page, pieces) (model_pages m) -> sys_mkdir sys (path_dir (page_path output page)) = None /\ sys_open sys (page_path output page) = None) ->
  exists rs fs', docs_command recover lookup sys paths output fs = Exit 0 rs fs'.
Proof.
  intros N O A GN W. destruct (docs_run recover lookup sys paths output fs m N O A) as (rs0 & Z & E).
  destruct (proj2 (docs_succeed sys output m rs0 fs GN Z) W) as (rs & fs' & G). exists rs, fs'. rewrite E, G. reflexivity.
Qed.
