(** Proofs about the buffers of the generators. *)
From Coq Require Import Ascii String Bool Arith ZArith NArith Lia Permutation List.
From Verif Require Import GoStrings GoStringsProofs GoMap GoMapProofs ReporterModel ReaderSpec ReaderProofs7 TextModel TextSpec TextProofs TextProofs2 TextProofs3 TextProofs4
  GoNamesModel BufferModel BufferSpec.
Import ListNotations.
Local Open Scope string_scope.

(** * Reports *)

Lemma errors_in_count l : errors_in l (error_count l).
Proof.
  rewrite error_count_filter. induction l as [|[s m] l IH]; [constructor|]. cbn [filter rp_severity].
  destruct s; cbn [length]; constructor; auto; discriminate.
Qed.
Lemma errors_in_unique l n : errors_in l n -> n = error_count l.
Proof.
  rewrite error_count_filter. induction 1; [reflexivity|cbn; now rewrite IHerrors_in|]. rewrite IHerrors_in. cbn. now destruct s.
Qed.
Lemma error_count_app a b : error_count (a ++ b)%list = error_count a + error_count b.
Proof. rewrite !error_count_filter, filter_app, app_length. reflexivity. Qed.
Lemma error_count_info m : error_count [info m] = 0.
Proof. reflexivity. Qed.

Lemma errors_found_says l : match errors_found (error_count l) with
  | Some m => exists n, errors_in l n /\ 0 < n /\ says n m
  | None => errors_in l 0 end.
Proof.
  pose proof (errors_in_count l) as H. unfold errors_found. destruct (Nat.ltb_spec 0 (error_count l)).
  - exists (error_count l). split; [exact H|]. split; [assumption|]. destruct (Nat.ltb_spec 1 (error_count l)); [right|left]; split; auto; lia.
  - assert (E : error_count l = 0) by lia. now rewrite E in H.
Qed.
Lemma errors_found_pos l n : errors_in l n -> 0 < n -> exists m, errors_found (error_count l) = Some m /\ says n m.
Proof.
  intros E P. apply errors_in_unique in E. subst n. unfold errors_found. destruct (Nat.ltb_spec 0 (error_count l)); [|lia].
  eexists. split; [reflexivity|]. destruct (Nat.ltb_spec 1 (error_count l)); [right|left]; split; auto; lia.
Qed.
Lemma errors_found_zero l : errors_in l 0 -> errors_found (error_count l) = None.
Proof. intros E. apply errors_in_unique in E. now rewrite <- E. Qed.

Lemma count_info l m : error_count (l ++ [info m])%list = error_count l.
Proof. rewrite error_count_app, error_count_info. lia. Qed.

(** * Refusing to write *)

Lemma go_refused sys header order b reports fs n : errors_in reports n -> 0 < n ->
  exists m, write_go sys header order b reports fs = (Some m, (reports ++ [info ("Writing file '" ++ gb_file b ++ "'")])%list, fs) /\ says n m.
Proof.
  intros E P. destruct (errors_found_pos _ _ E P) as (m & F & S). exists m. split; [|exact S].
  unfold write_go. cbv zeta. rewrite count_info, F. reflexivity.
Qed.
Lemma md_refused sys b reports fs n : errors_in reports n -> 0 < n ->
  exists m, write_md sys b reports fs = (Some m, (reports ++ [info ("Writing file '" ++ mb_file b ++ "'")])%list, fs) /\ says n m.
Proof.
  intros E P. destruct (errors_found_pos _ _ E P) as (m & F & S). exists m. split; [|exact S].
  unfold write_md. cbv zeta. rewrite count_info, F. reflexivity.
Qed.
Lemma openapi_refused sys output content reports fs n : errors_in reports n -> 0 < n ->
  exists m, write_openapi sys output content reports fs = (Some m, reports, fs) /\ says n m.
Proof.
  intros E P. destruct (errors_found_pos _ _ E P) as (m & F & S). exists m. split; [|exact S].
  unfold write_openapi. now rewrite F.
Qed.
Lemma model_refused versions reports n : errors_in reports n -> 0 < n ->
  exists m, write_model versions reports = (Some m, reports) /\ says n m.
Proof.
  intros E P. destruct (errors_found_pos _ _ E P) as (m & F & S). exists m. split; [|exact S].
  unfold write_model. now rewrite F.
Qed.

(** * Files that aren't written *)

Lemma only_same path fs : only_changes path fs fs.
Proof. now intros p _. Qed.
Lemma only_set path content fs : only_changes path fs (mset path content fs).
Proof. intros p N. now apply mget_mset_other. Qed.

Lemma go_only_changes sys header order b reports fs e reports' fs' :
  write_go sys header order b reports fs = (e, reports', fs') -> only_changes (gb_file b) fs fs'.
Proof.
  unfold write_go. cbv zeta. repeat match goal with |- context [match ?x with Some _ => _ | None => _ end] => destruct x end;
    intros H; injection H as <- <- <-; auto using only_same, only_set.
Qed.
Lemma md_only_changes sys b reports fs e reports' fs' :
  write_md sys b reports fs = (e, reports', fs') -> only_changes (mb_file b) fs fs'.
Proof.
  unfold write_md. cbv zeta. repeat match goal with |- context [match ?x with Some _ => _ | None => _ end] => destruct x end;
    intros H; injection H as <- <- <-; auto using only_same, only_set.
Qed.
Lemma openapi_only_changes sys output content reports fs e reports' fs' :
  write_openapi sys output content reports fs = (e, reports', fs') -> only_changes output fs fs'.
Proof.
  unfold write_openapi. cbv zeta. repeat match goal with |- context [match ?x with Some _ => _ | None => _ end] => destruct x end;
    intros H; injection H as <- <- <-; auto using only_same, only_set.
Qed.

(** * Writing *)

Lemma import_line_spec p : exists line, import_line p = (line ++ newline)%string /\ import_spec (fst p) (snd p) line.
Proof.
  destruct p as [i s]. unfold import_line, import_spec. cbn [fst snd]. destruct (String.eqb_spec s "") as [->|N]; cbn [negb].
  - exists ("""" ++ i ++ """"). split; [now rewrite !sapp_assoc|]. now left.
  - exists (s ++ " """ ++ i ++ """"). split; [now rewrite !sapp_assoc|]. now right.
Qed.

Lemma terminated_newline s l : terminated (s :: l) = (s ++ newline ++ terminated l)%string.
Proof. rewrite terminated_cons. reflexivity. Qed.

Lemma import_lines_spec l : exists lines, Forall2 (fun p line => import_spec (fst p) (snd p) line) l lines /\
  forall rest, (fold_right (fun p r => import_line p ++ r) "" l ++ terminated rest)%string = terminated (lines ++ rest).
Proof.
  induction l as [|p l IH]; [exists []; split; [constructor|reflexivity]|].
  destruct IH as (lines & F & E). destruct (import_line_spec p) as (line & L & S). exists (line :: lines). split; [now constructor|].
  intros rest. cbn [fold_right app]. rewrite terminated_newline, <- E, L, !sapp_assoc. reflexivity.
Qed.

Lemma preamble_spec header order b : Permutation (order (gb_imports b)) (gb_imports b) ->
  exists block, import_block (order (gb_imports b)) block /\
    go_preamble header order b = (header ++ newline ++ newline ++ "package " ++ clean_pkg (path_base (gb_pkg b)) ++ " // " ++ gb_pkg b ++ newline ++ newline ++ block)%string.
Proof.
  intros P. unfold go_preamble, import_block. destruct (Nat.ltb_spec 0 (length (gb_imports b))) as [L|L].
  - destruct (import_lines_spec (order (gb_imports b))) as (lines & F & E). exists (terminated (("import (" :: lines) ++ [")"; ""])).
    split.
    + right. split; [intros Z; rewrite Z in P; apply Permutation_nil in P; rewrite P in L; cbn in L; lia|]. exists lines. now split.
    + repeat f_equal. cbn [app]. rewrite terminated_newline, <- E, !terminated_newline. change (terminated []) with "". rewrite sapp_nil_r. reflexivity.
  - exists "". split; [left; split; [|reflexivity]|reflexivity].
    destruct (gb_imports b); [now apply Permutation_sym, Permutation_nil in P|cbn in L; lia].
Qed.

Lemma go_written sys header order b reports fs l l' : errors_in reports 0 -> sys_mkdir sys (path_dir (gb_file b)) = None ->
  sys_open sys (gb_file b) = None -> Permutation (order (gb_imports b)) (gb_imports b) ->
  text_lines (gb_code b) l -> Forall short l -> Forall2 without_cr l l' ->
  exists block code fs', import_block (order (gb_imports b)) block /\ tidied l' code /\
    write_go sys header order b reports fs = (None, (reports ++ [info ("Writing file '" ++ gb_file b ++ "'")])%list, fs') /\
    mget (gb_file b) fs' =
      Some (header ++ newline ++ newline ++ "package " ++ clean_pkg (path_base (gb_pkg b)) ++ " // " ++ gb_pkg b ++ newline ++ newline ++ block ++ terminated code)%string.
Proof.
  intros E M O P T S W. destruct (preamble_spec header order b P) as (block & B & Q).
  destruct (blank_lines_removed _ _ _ T S W) as (code & R & _ & D).
  exists block, code. eexists. split; [exact B|]. split; [exact D|]. split.
  - unfold write_go. cbv zeta. rewrite count_info, (errors_found_zero _ E), M, O, R. reflexivity.
  - rewrite mget_mset_same, Q, !sapp_assoc. reflexivity.
Qed.

Lemma md_written sys b reports fs l : errors_in reports 0 -> sys_mkdir sys (path_dir (mb_file b)) = None ->
  sys_open sys (mb_file b) = None -> text_lines (mb_code b) l -> Forall short l ->
  exists r fs', Forall2 cleaned l r /\ write_md sys b reports fs = (None, (reports ++ [info ("Writing file '" ++ mb_file b ++ "'")])%list, fs') /\
    mget (mb_file b) fs' = Some (terminated r).
Proof.
  intros E M O T S. destruct (markdown_cleaned _ _ T S) as (r & R & _ & C). exists r. eexists. split; [exact C|]. split.
  - unfold write_md. cbv zeta. rewrite count_info, (errors_found_zero _ E), M, O. reflexivity.
  - now rewrite mget_mset_same, R.
Qed.

Lemma openapi_written sys output content reports fs : errors_in reports 0 -> sys_mkdir sys (path_dir output) = None -> sys_open sys output = None ->
  exists fs', write_openapi sys output content reports fs = (None, (reports ++ [info ("Writing file '" ++ output ++ "'")])%list, fs') /\
    mget output fs' = Some content.
Proof.
  intros E M O. eexists. split; [unfold write_openapi; rewrite (errors_found_zero _ E), M, O; reflexivity|apply mget_mset_same].
Qed.

(** A successful result means that there were no errors and that the file was written. *)
Lemma go_success sys header order b reports fs reports' fs' : write_go sys header order b reports fs = (None, reports', fs') ->
  errors_in reports 0 /\ exists c, remove_extra_blank_lines (gb_code b) = Some c.
Proof.
  unfold write_go. cbv zeta. rewrite count_info. pose proof (errors_found_says reports) as F.
  destruct (errors_found (error_count reports)); [discriminate|]. intros H. split; [exact F|].
  destruct (sys_mkdir _ _); [discriminate|]. destruct (sys_open _ _); [discriminate|].
  destruct (remove_extra_blank_lines (gb_code b)) as [c|]; [eauto|discriminate].
Qed.

Lemma go_failures sys header order b reports fs l : text_lines (gb_code b) l ->
  (exists m, fst (fst (write_go sys header order b reports fs)) = Some m) <->
  (~ errors_in reports 0 \/ sys_mkdir sys (path_dir (gb_file b)) <> None \/ sys_open sys (gb_file b) <> None \/ ~ Forall short l).
Proof.
  intros T. pose proof (long_lines_fail _ _ T) as L. unfold write_go. cbv zeta. rewrite count_info.
  pose proof (errors_found_says reports) as F. destruct (errors_found (error_count reports)) as [m|].
  - split; [|intros _; exists m; reflexivity]. intros _. left. destruct F as (n & F & P & _). intros Z.
    apply errors_in_unique in Z, F. lia.
  - destruct (sys_mkdir _ _); [split; [intros _; right; left; discriminate|intros _; eexists; reflexivity]|].
    destruct (sys_open _ _); [split; [intros _; right; right; left; discriminate|intros _; eexists; reflexivity]|].
    destruct (remove_extra_blank_lines (gb_code b)) eqn:R.
    + split; [intros (m & H); discriminate|]. intros [H|[H|[H|H]]]; [now destruct H| | |apply L in H; discriminate]; congruence.
    + split; [intros _; right; right; right; now apply L|intros _; eexists; reflexivity].
Qed.

(** The file is damaged when the result is the error of the long lines. *)
Lemma go_truncated : exists sys header order b reports fs m reports' fs',
  write_go sys header order b reports fs = (Some m, reports', fs') /\ errors_in reports 0 /\ mget (gb_file b) fs = Some "old" /\
  mget (gb_file b) fs' <> Some "old".
Proof.
  set (code := string_of_list_ascii (repeat "x"%char (N.to_nat 65536))).
  assert (R : remove_extra_blank_lines code = None).
  { apply (long_lines_fail code [code]).
    - assert (I : ~ occurs lf code).
      { apply no_char_occurs. vm_compute. reflexivity. }
      split; [now constructor|]. right. exists [], code. split; [reflexivity|]. split; [|reflexivity].
      intros H. apply (f_equal String.length) in H. revert H. apply Nat.eqb_neq. vm_compute. reflexivity.
    - intros F. inversion_clear F. unfold short in H. revert H. apply N.le_ngt. apply N.leb_le. vm_compute. reflexivity. }
  set (b := MkGoBuffer "p" "p/f.go" [] code).
  assert (W : exists m r, write_go (MkSystem (fun _ => None) (fun _ => None)) "" (fun l => l) b [] [("p/f.go", "old")] =
                        (Some m, r, mset (gb_file b) (go_preamble "" (fun l => l) b) [("p/f.go", "old")])).
  { do 2 eexists. unfold write_go. cbv zeta. rewrite count_info. change (errors_found (error_count [])) with (@None string).
    cbn [sys_mkdir sys_open]. change (gb_code b) with code. rewrite R. reflexivity. }
  destruct W as (m & r & W). exists (MkSystem (fun _ => None) (fun _ => None)), "", (fun l => l), b, [], [("p/f.go", "old")], m, r.
  eexists. split; [exact W|]. split; [constructor|]. split; [reflexivity|]. rewrite mget_mset_same. discriminate.
Qed.

Lemma model_written versions reports : errors_in reports 0 -> exists more, write_model versions reports = (None, (reports ++ more)%list) /\ errors_in more 0 /\
  (forall m, In (info m) more <-> exists ts rs, In (ts, rs) versions /\
     ((exists t, In t ts /\ m = "Writing type '" ++ t ++ "'") \/ exists r, In r rs /\ m = "Writing resource '" ++ r ++ "'")).
Proof.
  intros E. unfold write_model. rewrite (errors_found_zero _ E). eexists. split; [reflexivity|]. split.
  - match goal with |- errors_in ?l 0 => enough (error_count l = 0) as Z by (rewrite <- Z; apply errors_in_count) end.
    apply error_count_zero. intros m I. apply in_flat_map in I. destruct I as (v & _ & I). apply in_app_iff in I.
    destruct I as [I|I]; apply in_map_iff in I; destruct I as (x & D & _); discriminate.
  - intros m. rewrite in_flat_map. split.
    + intros ((ts & rs) & I & J). exists ts, rs. split; [exact I|]. apply in_app_iff in J. cbn [fst snd] in J.
      destruct J as [J|J]; apply in_map_iff in J; destruct J as (x & D & J); apply (f_equal rp_message) in D; cbn [rp_message info] in D; subst m; [left|right]; eauto.
    + intros (ts & rs & I & J). exists (ts, rs). split; [exact I|]. apply in_app_iff. cbn [fst snd].
      destruct J as [(t & J & ->)|(t & J & ->)]; [left|right]; apply in_map_iff; exists t; auto.
Qed.
