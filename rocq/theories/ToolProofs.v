(** Proofs about the reader of directories. *)
From Coq Require Import Ascii String Bool Arith ZArith Lia List Permutation Sorted.
From Verif Require Import GoStrings GoStringsProofs GoMap GoMapProofs NamesModel NamesSpec NamesProofs ConceptsModel ReporterModel ReaderModel ReaderSpec ReaderProofs ReaderProofs7 GoNamesModel SyntaxModel BufferModel BufferSpec BufferProofs ChecksModel JsonProofs2 ToolModel ToolSpec.
Import ListNotations.
Local Open Scope string_scope.

(** * Sorted directories *)

Definition entry_less (a b : string * node) : bool := Z.ltb (str_compare (fst a) (fst b)) 0.

Lemma entry_less_lt a b : entry_less a b = true <-> str_lt (fst a) (fst b).
Proof. apply str_less. Qed.

Lemma entry_trans a b c : entry_less a b = true -> entry_less b c = true -> entry_less a c = true.
Proof. rewrite !entry_less_lt. apply str_lt_trans. Qed.

Lemma entry_irrefl a : entry_less a a = false.
Proof. destruct (entry_less a a) eqn:E; auto. apply entry_less_lt in E. now apply str_lt_irrefl in E. Qed.

Lemma sorted_impl {A} (R R' : A -> A -> Prop) : (forall a b, R a b -> R' a b) -> forall l, StronglySorted R l -> StronglySorted R' l.
Proof.
  intros H. induction 1 as [|a l S IH F]; constructor; auto. eapply Forall_impl; [|exact F]. auto.
Qed.

Lemma different_separated (l : list (string * node)) : NoDup (map fst l) -> separated entry_less l.
Proof.
  induction l as [|a l IH]; intros D; constructor.
  - apply Forall_forall. intros b I. rewrite !entry_less_lt. inversion D as [|x y Hx Hy]; subst.
    destruct (str_compare_range (fst a) (fst b)) as [H|[H|H]].
    + left. now apply str_compare_lt.
    + apply str_compare_eq in H. exfalso. apply Hx. rewrite H. now apply in_map.
    + right. apply str_compare_lt. rewrite str_compare_opp, H. reflexivity.
  - apply IH. now inversion D.
Qed.

Lemma sorted_separated (l : list (string * node)) : StronglySorted (fun a b => str_lt (fst a) (fst b)) l -> separated entry_less l.
Proof.
  induction 1 as [|a l S IH F]; constructor; auto. eapply Forall_impl; [|exact F]. intros b H. left. now apply entry_less_lt.
Qed.

Lemma read_dir_listed l : NoDup (map fst l) -> listed l (read_dir l).
Proof.
  intros D. split; [apply (sort_perm entry_less)|]. apply (sorted_impl (fun a b => entry_less a b = true)); [intros a b; apply entry_less_lt|].
  exact (sort_sorted entry_less entry_trans l (different_separated l D)).
Qed.

Lemma listed_read_dir l l' : listed l l' -> read_dir l = l'.
Proof.
  intros [P S]. symmetry. apply (sort_unique entry_less entry_trans entry_irrefl).
  - eapply separated_perm; [apply Permutation_sym; exact P|]. now apply sorted_separated.
  - exact P.
  - eapply sorted_impl; [|exact S]. intros a b. apply entry_less_lt.
Qed.

Lemma listed_unique l a b : listed l a -> listed l b -> a = b.
Proof. intros A B. rewrite <- (listed_read_dir _ _ A). now apply listed_read_dir. Qed.

(** * The errors *)

Lemma no_count l : errors_in l 0 <-> error_count l = 0%nat.
Proof.
  split; intros H.
  - apply errors_in_unique in H. auto.
  - pose proof (errors_in_count l) as E. now rewrite H in E.
Qed.

Lemma error_count_err m : error_count [err m] = 1%nat.
Proof. rewrite error_count_filter. reflexivity. Qed.

(** The state of the reader without the texts of the reports. *)
Definition sim (a b : rstate) : Prop :=
  rs_version a = rs_version b /\ rs_utypes a = rs_utypes b /\ rs_uresources a = rs_uresources b /\ error_count (rs_reports a) = error_count (rs_reports b).

Lemma sim_refl a : sim a a.
Proof. now repeat split. Qed.

Lemma run_ev_sim e a b : sim a b -> sim (run_ev a e) (run_ev b e).
Proof.
  destruct a as [v u ur r], b as [v' u' ur' r']. intros (E1 & E2 & E3 & E4). cbn in E1, E2, E3, E4. subst v' u' ur'.
  destruct e as [x|n|t|kd n fill|n|n fill|x]; cbn [run_ev].
  - unfold add_report. repeat split. cbn. rewrite !error_count_app. lia.
  - unfold refer_type. cbn [rs_version]. destruct (find_type n v); repeat split; assumption.
  - cbn [rs_version]. destruct (find_type (t_name t) v); repeat split; assumption.
  - unfold declare_type. cbn [rs_version]. destruct (find_type n v) as [t|]; [|repeat split; assumption].
    unfold is_undefined_type. cbn [rs_utypes]. destruct (mhas _ u); [repeat split; assumption|].
    unfold add_report. repeat split. cbn. rewrite !error_count_app. lia.
  - cbn [rs_version]. destruct (find_resource n v); repeat split; assumption.
  - cbn [rs_version]. destruct (find_resource n v) as [t|]; [|repeat split; assumption].
    unfold is_undefined_resource. cbn [rs_uresources]. destruct (mhas _ ur); [repeat split; assumption|].
    unfold add_report. repeat split. cbn. rewrite !error_count_app. lia.
  - cbn [rs_version]. destruct (find_error _ v); [|repeat split; assumption].
    unfold add_report. repeat split. cbn. rewrite !error_count_app. lia.
Qed.

Lemma run_sim l : forall a b, sim a b -> sim (run l a) (run l b).
Proof.
  induction l as [|e l IH]; intros a b H; [exact H|]. change (sim (run l (run_ev a e)) (run l (run_ev b e))). apply IH. now apply run_ev_sim.
Qed.

Lemma decls_sim ds : forall a b, sim a b -> sim (fold_left (fun st d => exit_decl d st) ds a) (fold_left (fun st d => exit_decl d st) ds b).
Proof.
  induction ds as [|d ds IH]; intros a b H; [exact H|]. cbn [fold_left]. apply IH. rewrite !exit_decl_run. now apply run_sim.
Qed.

Definition grows (a b : list report) : Prop := (error_count a <= error_count b)%nat.

Lemma grows_trans a b c : grows a b -> grows b c -> grows a c.
Proof. unfold grows. lia. Qed.
Lemma grows_app a b : grows a (a ++ b)%list.
Proof. unfold grows. rewrite error_count_app. lia. Qed.

Lemma decls_grow ds : forall st, grows (rs_reports st) (rs_reports (fold_left (fun st d => exit_decl d st) ds st)).
Proof.
  induction ds as [|d ds IH]; intros st; [unfold grows; cbn; lia|]. cbn [fold_left]. eapply grows_trans; [|apply IH].
  rewrite exit_decl_run. destruct (run_grow (decl_evs d) st) as [x ->]. apply grows_app.
Qed.

Lemma decls_zero ds st : error_count (rs_reports (fold_left (fun st d => exit_decl d st) ds st)) = 0%nat -> error_count (rs_reports st) = 0%nat.
Proof. pose proof (decls_grow ds st) as G. unfold grows in G. lia. Qed.

Definition gsim (a b : gstate) : Prop :=
  g_model a = g_model b /\ g_utypes a = g_utypes b /\ g_uresources a = g_uresources b /\ error_count (g_reports a) = error_count (g_reports b).

Lemma gsim_refl a : gsim a a.
Proof. now repeat split. Qed.

Lemma each_app {A B} (f : A -> B -> outcome B) l l' b : each f (l ++ l') b = match each f l b with Done b => each f l' b | Panics => Panics | OutOfFuel => OutOfFuel end.
Proof. revert b. induction l as [|a l IH]; intros b; [reflexivity|]. cbn [each app]. destruct (f a b); auto. Qed.

Section Directories.
  Context (recover : string -> list report * outcome (list decl)) (lookup : string -> found).
  Context (R : reports_syntax recover).

  (** * Files *)

  Lemma load_source_grow path c st st' : load_source recover path c st = Done st' -> grows (rs_reports st) (rs_reports st').
  Proof.
    unfold load_source. cbv zeta. destruct c as [text|e].
    - destruct (load_text text) as [ds rs ig| | |]; try discriminate.
      + intros E. injection E as <-. eapply grows_trans; [|apply decls_grow]. cbn. rewrite <- app_assoc. apply grows_app.
      + destruct (recover text) as [rs [ds| |]]; try discriminate. intros E. injection E as <-. eapply grows_trans; [|apply decls_grow]. cbn. rewrite <- app_assoc. apply grows_app.
    - intros E. injection E as <-. cbn. rewrite <- app_assoc. apply grows_app.
  Qed.

  Lemma load_source_declares path c st st' : load_source recover path c st = Done st' -> error_count (rs_reports st') = 0%nat ->
    exists text ds, c = inl text /\ declares text ds.
  Proof.
    unfold load_source. cbv zeta. destruct c as [text|e].
    - destruct (load_text text) as [ds rs ig| | |] eqn:L; try discriminate.
      + intros E Z. injection E as <-. exists text, ds. split; [reflexivity|]. exists rs, ig. split; [exact L|]. apply no_count.
        apply decls_zero in Z. cbn in Z. rewrite !error_count_app in Z. lia.
      + pose proof (R text L) as NE. destruct (recover text) as [rs [ds| |]]; try discriminate. cbn [fst] in NE. intros E Z. injection E as <-. exfalso. apply NE. apply no_count.
        apply decls_zero in Z. cbn in Z. rewrite !error_count_app in Z. lia.
    - intros E Z. injection E as <-. cbn in Z. rewrite !error_count_app, error_count_err in Z. lia.
  Qed.

  Lemma load_source_sim path text ds a b : declares text ds -> sim a b -> exists a', load_source recover path (inl text) a = Done a' /\ sim a' (load_file (path, ds) b).
  Proof.
    intros (rs & ig & L & N) S. apply no_count in N. unfold load_source. cbv zeta. rewrite L. eexists. split; [reflexivity|].
    unfold load_file. cbn [fst snd]. apply decls_sim. destruct S as (S1 & S2 & S3 & S4). repeat split; cbn; auto. rewrite !error_count_app. lia.
  Qed.

  (** * Versions *)

  Lemma version_entry_grow dir e st st' : version_entry recover dir e st = Done st' -> grows (rs_reports st) (rs_reports st').
  Proof.
    unfold version_entry. destruct (snd e) as [c|x|]; intros E; try (injection E as <-; apply grows_app). eapply load_source_grow; eauto.
  Qed.

  Lemma each_version_grow dir l : forall st st', each (version_entry recover dir) l st = Done st' -> grows (rs_reports st) (rs_reports st').
  Proof.
    induction l as [|e l IH]; intros st st' E; [injection E as <-; unfold grows; lia|]. cbn [each] in E.
    destruct (version_entry recover dir e st) as [st1| |] eqn:E1; try discriminate. eapply grows_trans; [eapply version_entry_grow; eauto|eauto].
  Qed.

  Lemma each_version_files dir l : forall st st', each (version_entry recover dir) l st = Done st' -> error_count (rs_reports st') = 0%nat -> exists fs, files_of dir l fs.
  Proof.
    induction l as [|[name n] l IH]; intros st st' E Z; [exists []; constructor|]. cbn [each] in E.
    destruct (version_entry recover dir (name, n) st) as [st1| |] eqn:E1; try discriminate. destruct (IH _ _ E Z) as [fs F].
    pose proof (each_version_grow _ _ _ _ E) as G. unfold grows in G. rewrite Z in G.
    unfold version_entry in E1. cbn [fst snd] in E1. destruct n as [c|x|].
    - destruct (load_source_declares _ _ _ _ E1 ltac:(lia)) as (text & ds & -> & D). eexists. eapply fo_file; eauto.
    - exists fs. apply fo_other; [discriminate|exact F].
    - exists fs. apply fo_other; [discriminate|exact F].
  Qed.

  Lemma each_version_sim dir l fs : files_of dir l fs -> forall a b, sim a b ->
    exists a', each (version_entry recover dir) l a = Done a' /\ sim a' (fold_left (fun st f => load_file f st) fs b).
  Proof.
    induction 1 as [|name text ds l fs D F IH|name n l fs N F IH]; intros a b S.
    - exists a. split; [reflexivity|exact S].
    - cbn [each fold_left]. unfold version_entry at 1. cbn [fst snd]. destruct (load_source_sim (path_join [dir; name]) text ds a b D S) as (a1 & -> & S1).
      apply IH. exact S1.
    - cbn [each]. unfold version_entry at 1. cbn [fst snd]. destruct n as [c|x|]; [now destruct (N c)| |]; apply IH; destruct S as (S1 & S2 & S3 & S4);
        repeat split; cbn; auto; rewrite error_count_app, error_count_info; lia.
  Qed.

  Lemma load_version_grow dir name e s g s' g' : load_version_dir recover dir name e (s, g) = Done (s', g') -> grows (g_reports g) (g_reports g').
  Proof.
    unfold load_version_dir. cbv zeta.
    set (st := MkRState _ (g_utypes g) (g_uresources g) (g_reports g)). destruct e as [l|e].
    - destruct (each _ (read_dir l) st) as [st'| |] eqn:E; try discriminate. intros H. injection H as _ <-. apply each_version_grow in E. exact E.
    - intros H. injection H as _ <-. cbn. apply grows_app.
  Qed.

  Lemma load_version_sim dir name l l' fs s a b : listed l l' -> files_of dir l' fs -> gsim a b ->
    exists a', load_version_dir recover dir name (inl l) (s, a) = Done (fst (load_version s (name, fs) b), a') /\ gsim a' (snd (load_version s (name, fs) b)).
  Proof.
    intros L F (S1 & S2 & S3 & S4). unfold load_version_dir, load_version. cbv zeta. rewrite (listed_read_dir _ _ L). cbn [fst snd].
    set (v := match find_version _ s with Some v => v | None => _ end).
    destruct (each_version_sim dir l' fs F (MkRState v (g_utypes a) (g_uresources a) (g_reports a)) (MkRState v (g_utypes b) (g_uresources b) (g_reports b))) as (a' & -> & Q1 & Q2 & Q3 & Q4).
    { repeat split; auto. }
    eexists. rewrite Q1. split; [reflexivity|]. repeat split; cbn; auto.
  Qed.

  Lemma load_version_files dir name e s g s' g' : different_names (Directory e) -> load_version_dir recover dir name e (s, g) = Done (s', g') -> error_count (g_reports g') = 0%nat ->
    exists l l' fs, e = inl l /\ listed l l' /\ files_of dir l' fs.
  Proof.
    intros D. unfold load_version_dir. cbv zeta. set (st := MkRState _ (g_utypes g) (g_uresources g) (g_reports g)). destruct e as [l|e].
    - inversion D as [| | |x Dx _]; subst. destruct (each _ (read_dir l) st) as [st'| |] eqn:E; try discriminate. intros H Z. injection H as _ <-.
      destruct (each_version_files _ _ _ _ E Z) as [fs F]. exists l, (read_dir l), fs. split; [reflexivity|]. split; [now apply read_dir_listed|exact F].
    - intros H Z. injection H as _ <-. cbn in Z. rewrite error_count_app, error_count_err in Z. lia.
  Qed.

  (** * Services *)

  Lemma service_entry_grow dir e sg sg' : service_entry recover dir e sg = Done sg' -> grows (g_reports (snd sg)) (g_reports (snd sg')).
  Proof.
    unfold service_entry. destruct sg as [s g], sg' as [s' g']. destruct (snd e) as [c|x|]; intros E; try (injection E as _ <-; apply grows_app). eapply load_version_grow; eauto.
  Qed.

  Lemma each_service_grow dir l : forall sg sg', each (service_entry recover dir) l sg = Done sg' -> grows (g_reports (snd sg)) (g_reports (snd sg')).
  Proof.
    induction l as [|e l IH]; intros st st' E; [injection E as <-; unfold grows; lia|]. cbn [each] in E.
    destruct (service_entry recover dir e st) as [st1| |] eqn:E1; try discriminate. eapply grows_trans; [eapply service_entry_grow; eauto|eauto].
  Qed.

  Lemma each_service_versions dir l : (forall name n, In (name, n) l -> different_names n) -> forall sg sg', each (service_entry recover dir) l sg = Done sg' ->
    error_count (g_reports (snd sg')) = 0%nat -> exists vs, versions_of dir l vs.
  Proof.
    induction l as [|[name n] l IH]; intros D sg sg' E Z; [exists []; constructor|]. cbn [each] in E.
    destruct (service_entry recover dir (name, n) sg) as [sg1| |] eqn:E1; try discriminate. destruct (IH (fun x y I => D x y (or_intror I)) _ _ E Z) as [vs F].
    pose proof (each_service_grow _ _ _ _ E) as G. unfold grows in G. rewrite Z in G.
    unfold service_entry in E1. cbn [fst snd] in E1. destruct n as [c|x|].
    - exists vs. apply vo_other; [discriminate|exact F].
    - destruct sg as [s g], sg1 as [s1 g1]. destruct (load_version_files _ _ _ _ _ _ _ (D name _ (or_introl eq_refl)) E1 ltac:(cbn in G; lia)) as (k & k' & fs & -> & L & Q).
      eexists. eapply vo_version; eauto.
    - exists vs. apply vo_other; [discriminate|exact F].
  Qed.

  Lemma each_service_sim dir l vs : versions_of dir l vs -> forall s a b, gsim a b ->
    exists s' a' b', each (service_entry recover dir) l (s, a) = Done (s', a') /\
      fold_left (fun (sg : service * gstate) vd => load_version (fst sg) vd (snd sg)) vs (s, b) = (s', b') /\ gsim a' b'.
  Proof.
    induction 1 as [|name l l' fs r vs L F V IH|name n r vs N V IH]; intros s a b S.
    - exists s, a, b. auto.
    - cbn [each fold_left]. unfold service_entry at 1. cbn [fst snd].
      destruct (load_version_sim (path_join [dir; name]) name l l' fs s a b L F S) as (a1 & -> & S1).
      destruct (load_version s (name, fs) b) as [s1 b1]. cbn [fst snd] in *. apply IH. exact S1.
    - cbn [each]. unfold service_entry at 1. cbn [fst snd]. destruct n as [c|x|]; [|now destruct (N x)|]; apply IH; destruct S as (S1 & S2 & S3 & S4);
        repeat split; cbn; auto; rewrite error_count_app, error_count_info; lia.
  Qed.

  Lemma load_service_grow dir name e g g' : load_service_dir recover dir name e g = Done g' -> grows (g_reports g) (g_reports g').
  Proof.
    unfold load_service_dir. cbv zeta. set (s := match find_service _ _ with Some s => s | None => _ end). destruct e as [l|e].
    - destruct (each _ (read_dir l) (s, g)) as [[s' g1]| |] eqn:E; try discriminate. intros H. injection H as <-. apply each_service_grow in E. exact E.
    - intros H. injection H as <-. cbn. apply grows_app.
  Qed.

  Lemma load_service_sim dir name l l' vs a b : listed l l' -> versions_of dir l' vs -> gsim a b ->
    exists a', load_service_dir recover dir name (inl l) a = Done a' /\ gsim a' (load_service (name, vs) b).
  Proof.
    intros L F S. unfold load_service_dir, load_service. cbv zeta. rewrite (listed_read_dir _ _ L). cbn [fst snd].
    pose proof S as (S1 & S2 & S3 & S4). rewrite S1.
    set (s := match find_service _ _ with Some s => s | None => _ end).
    destruct (each_service_sim dir l' vs F s a b S) as (s' & a' & b' & -> & -> & Q1 & Q2 & Q3 & Q4).
    eexists. split; [reflexivity|]. repeat split; cbn; auto. now rewrite Q1.
  Qed.

  Lemma load_service_versions dir name e g g' : different_names (Directory e) -> load_service_dir recover dir name e g = Done g' -> error_count (g_reports g') = 0%nat ->
    exists l l' vs, e = inl l /\ listed l l' /\ versions_of dir l' vs.
  Proof.
    intros D. unfold load_service_dir. cbv zeta. set (s := match find_service _ _ with Some s => s | None => _ end). destruct e as [l|e].
    - inversion D as [| | |x Dx Dn]; subst. destruct (each _ (read_dir l) (s, g)) as [[s' g1]| |] eqn:E; try discriminate. intros H Z. injection H as <-.
      destruct (each_service_versions dir (read_dir l) ltac:(intros nm nd I; apply (Dn nm nd); apply (proj1 (sort_in _ _ _)) in I; exact I) _ _ E Z) as [vs F].
      exists l, (read_dir l), vs. split; [reflexivity|]. split; [now apply read_dir_listed|exact F].
    - intros H Z. injection H as <-. cbn in Z. rewrite error_count_app, error_count_err in Z. lia.
  Qed.

  (** * Models *)

  Lemma model_entry_grow dir e g g' : model_entry recover dir e g = Done g' -> grows (g_reports g) (g_reports g').
  Proof.
    unfold model_entry. destruct (snd e) as [c|x|]; intros E; try (injection E as <-; apply grows_app). eapply load_service_grow; eauto.
  Qed.

  Lemma each_model_grow dir l : forall g g', each (model_entry recover dir) l g = Done g' -> grows (g_reports g) (g_reports g').
  Proof.
    induction l as [|e l IH]; intros st st' E; [injection E as <-; unfold grows; lia|]. cbn [each] in E.
    destruct (model_entry recover dir e st) as [st1| |] eqn:E1; try discriminate. eapply grows_trans; [eapply model_entry_grow; eauto|eauto].
  Qed.

  Lemma each_model_services dir l : (forall name n, In (name, n) l -> different_names n) -> forall g g', each (model_entry recover dir) l g = Done g' ->
    error_count (g_reports g') = 0%nat -> exists ss, services_of dir l ss.
  Proof.
    induction l as [|[name n] l IH]; intros D sg sg' E Z; [exists []; constructor|]. cbn [each] in E.
    destruct (model_entry recover dir (name, n) sg) as [sg1| |] eqn:E1; try discriminate. destruct (IH (fun x y I => D x y (or_intror I)) _ _ E Z) as [vs F].
    pose proof (each_model_grow _ _ _ _ E) as G. unfold grows in G. rewrite Z in G.
    unfold model_entry in E1. cbn [fst snd] in E1. destruct n as [c|x|].
    - exists vs. apply so_other; [discriminate|exact F].
    - destruct (load_service_versions _ _ _ _ _ (D name _ (or_introl eq_refl)) E1 ltac:(lia)) as (k & k' & fs & -> & L & Q).
      eexists. eapply so_service; eauto.
    - exists vs. apply so_other; [discriminate|exact F].
  Qed.

  Lemma each_model_sim dir l ss : services_of dir l ss -> forall a b, gsim a b ->
    exists a', each (model_entry recover dir) l a = Done a' /\ gsim a' (load_model ss b).
  Proof.
    unfold load_model. induction 1 as [|name l l' vs r ss L F V IH|name n r ss N V IH]; intros a b S.
    - exists a. auto.
    - cbn [each fold_left]. unfold model_entry at 1. cbn [fst snd].
      destruct (load_service_sim (path_join [dir; name]) name l l' vs a b L F S) as (a1 & -> & S1). apply IH. exact S1.
    - cbn [each]. unfold model_entry at 1. cbn [fst snd]. destruct n as [c|x|]; [|now destruct (N x)|]; apply IH; destruct S as (S1 & S2 & S3 & S4);
        repeat split; cbn; auto; rewrite error_count_app, error_count_info; lia.
  Qed.

  Lemma load_model_grow dir g g' : load_model_dir recover lookup dir g = Done g' -> grows (g_reports g) (g_reports g').
  Proof.
    unfold load_model_dir. destruct (lookup dir) as [|e|[c|[l|e]|]]; intros H; try (injection H as <-; cbn; apply grows_app). eapply each_model_grow; eauto.
  Qed.

  Lemma load_model_contains dir g g' : proper lookup -> load_model_dir recover lookup dir g = Done g' -> error_count (g_reports g') = 0%nat -> exists ss, contains lookup dir ss.
  Proof.
    intros P. unfold load_model_dir. destruct (lookup dir) as [|e|[c|[l|e]|]] eqn:L; intros H Z;
      try (injection H as <-; cbn in Z; rewrite error_count_app, error_count_err in Z; lia).
    pose proof (P _ _ L) as D. inversion D as [| | |x Dx Dn]; subst.
    destruct (each_model_services dir (read_dir l) ltac:(intros nm nd I; apply (Dn nm nd); apply (proj1 (sort_in _ _ _)) in I; exact I) _ _ H Z) as [ss F].
    exists ss, l, (read_dir l). split; [exact L|]. split; [now apply read_dir_listed|exact F].
  Qed.

  Lemma load_model_sim dir ss a b : contains lookup dir ss -> gsim a b -> exists a', load_model_dir recover lookup dir a = Done a' /\ gsim a' (load_model ss b).
  Proof.
    intros (l & l' & L & P & F) S. unfold load_model_dir. rewrite L, (listed_read_dir _ _ P). apply each_model_sim; auto.
  Qed.

  Lemma each_paths_grow l : forall g g', each (load_model_dir recover lookup) l g = Done g' -> grows (g_reports g) (g_reports g').
  Proof.
    induction l as [|e l IH]; intros st st' E; [injection E as <-; unfold grows; lia|]. cbn [each] in E.
    destruct (load_model_dir recover lookup e st) as [st1| |] eqn:E1; try discriminate. eapply grows_trans; [eapply load_model_grow; eauto|eauto].
  Qed.

  Lemma each_paths_contain l : proper lookup -> forall g g', each (load_model_dir recover lookup) l g = Done g' -> error_count (g_reports g') = 0%nat ->
    exists inputs, Forall2 (contains lookup) l inputs.
  Proof.
    intros P. induction l as [|e l IH]; intros g g' E Z; [exists []; constructor|]. cbn [each] in E.
    destruct (load_model_dir recover lookup e g) as [g1| |] eqn:E1; try discriminate. destruct (IH _ _ E Z) as [inputs F].
    pose proof (each_paths_grow _ _ _ E) as G. unfold grows in G. rewrite Z in G. destruct (load_model_contains _ _ _ P E1 ltac:(lia)) as [ss C].
    exists (ss :: inputs). constructor; auto.
  Qed.

  Lemma each_paths_sim l inputs : Forall2 (contains lookup) l inputs -> forall a b, gsim a b ->
    exists a', each (load_model_dir recover lookup) l a = Done a' /\ gsim a' (fold_left (fun g i => load_model i g) inputs b).
  Proof.
    induction 1 as [|dir ss l inputs C F IH]; intros a b S; [exists a; auto|]. cbn [each fold_left].
    destruct (load_model_sim dir ss a b C S) as (a1 & -> & S1). apply IH. exact S1.
  Qed.

  (** * The result *)

  Lemma read_finish inputs reports : read inputs reports = finish_read (load_inputs inputs reports).
  Proof. reflexivity. Qed.

  Lemma decide_ok m reports : decide m reports = ROk m <-> error_count reports = 0%nat.
  Proof.
    unfold decide. cbv zeta. destruct (Nat.ltb_spec 0 (error_count reports)) as [H|H].
    - split; [|lia]. destruct (Nat.ltb _ _); discriminate.
    - split; auto. intros _. lia.
  Qed.

  Lemma decide_ok_model m m' reports : decide m reports = ROk m' -> m = m' /\ error_count reports = 0%nat.
  Proof.
    intros E. unfold decide in E. cbv zeta in E. destruct (Nat.ltb_spec 0 (error_count reports)) as [H|H].
    - destruct (Nat.ltb _ _); discriminate.
    - split; [congruence|lia].
  Qed.

  Lemma decide_error m e reports : decide m reports = RError e -> (0 < error_count reports)%nat.
  Proof.
    intros E. unfold decide in E. cbv zeta in E. destruct (Nat.ltb_spec 0 (error_count reports)) as [H|H]; [exact H|discriminate].
  Qed.

  Lemma finish_ok g m rs : finish_read g = Done (ROk m, rs) -> error_count (g_reports g) = 0%nat /\ error_count rs = 0%nat.
  Proof.
    unfold finish_read. cbv zeta. destruct (check_model _) as [l| |]; try discriminate. intros E.
    apply (f_equal (fun o => match o with Done (a, b) => Some (a, b) | _ => None end)) in E. cbv iota beta in E. injection E as D <-.
    apply decide_ok_model in D as [_ D]. split; [|exact D]. rewrite !error_count_app in D. lia.
  Qed.

  Lemma finish_sim a b m : gsim a b -> (exists rs, finish_read a = Done (ROk m, rs)) -> exists rs, finish_read b = Done (ROk m, rs).
  Proof.
    intros (S1 & S2 & S3 & S4) [rs E]. unfold finish_read in *. cbv zeta in *. rewrite S1 in E.
    assert (U : undefined_reports a = undefined_reports b) by (unfold undefined_reports; now rewrite S2, S3). rewrite U in E. clear U.
    destruct (check_model _) as [l| |]; try discriminate.
    apply (f_equal (fun o => match o with Done (a, b) => Some (a, b) | _ => None end)) in E. cbv iota beta in E. injection E as D _.
    apply decide_ok_model in D as [M D]. eexists. f_equal. f_equal. rewrite <- M. apply decide_ok. rewrite !error_count_app in D |- *. lia.
  Qed.

  Lemma gsim_sym a b : gsim a b -> gsim b a.
  Proof. intros (S1 & S2 & S3 & S4). repeat split; auto. Qed.

  Lemma read_accepted paths m rs : proper lookup -> read_paths recover lookup paths [] = Done (ROk m, rs) -> accepted lookup paths m.
  Proof.
    intros P E. unfold read_paths in E. destruct (each _ _ _) as [g| |] eqn:L; try discriminate.
    destruct (finish_ok _ _ _ E) as [Z _]. destruct (each_paths_contain _ P _ _ L Z) as [inputs F].
    destruct (each_paths_sim _ _ F _ _ (gsim_refl (MkGState [] [] [] []))) as (a & E' & S). rewrite L in E'. injection E' as <-.
    destruct (finish_sim _ _ m S (ex_intro _ rs E)) as [rs' Q]. exists inputs, rs'. split; [exact F|]. rewrite read_finish. exact Q.
  Qed.

  Lemma accepted_read paths m : accepted lookup paths m -> exists rs, read_paths recover lookup paths [] = Done (ROk m, rs) /\ errors_in rs 0.
  Proof.
    intros (inputs & rs & F & E). destruct (each_paths_sim _ _ F _ _ (gsim_refl (MkGState [] [] [] []))) as (a & E' & S).
    rewrite read_finish in E. destruct (finish_sim _ _ m (gsim_sym _ _ S) (ex_intro _ rs E)) as [rs' Q]. exists rs'.
    unfold read_paths. rewrite E'. split; [exact Q|]. apply no_count. now apply finish_ok in Q.
  Qed.

  Lemma read_paths_ok paths m : proper lookup -> (exists rs, read_paths recover lookup paths [] = Done (ROk m, rs)) <-> accepted lookup paths m.
  Proof.
    intros P. split.
    - intros [rs E]. eapply read_accepted; eauto.
    - intros A. destruct (accepted_read _ _ A) as (rs & E & _). eauto.
  Qed.

  Lemma finish_error g e rs : finish_read g = Done (RError e, rs) -> (0 < error_count rs)%nat.
  Proof.
    unfold finish_read. cbv zeta. destruct (check_model _) as [l| |]; try discriminate. intros E.
    apply (f_equal (fun o => match o with Done (a, b) => Some (a, b) | _ => None end)) in E. cbv iota beta in E. injection E as D <-.
    now apply decide_error in D.
  Qed.

  Lemma read_paths_error paths e rs0 rs : read_paths recover lookup paths rs0 = Done (RError e, rs) -> (0 < error_count rs)%nat.
  Proof. unfold read_paths. destruct (each _ _ _) as [g| |]; try discriminate. apply finish_error. Qed.

  Lemma read_paths_fine paths m rs0 rs : read_paths recover lookup paths rs0 = Done (ROk m, rs) -> error_count rs = 0%nat.
  Proof. unfold read_paths. destruct (each _ _ _) as [g| |]; try discriminate. intros E. now apply finish_ok in E. Qed.
End Directories.

(** * What the directories contain is determined *)

Lemma declares_unique text a b : declares text a -> declares text b -> a = b.
Proof. intros (r & i & E & _) (r' & i' & E' & _). congruence. Qed.

Lemma files_unique dir l a : files_of dir l a -> forall b, files_of dir l b -> a = b.
Proof.
  induction 1 as [|name text ds l fs D F IH|name n l fs N F IH]; intros b B.
  - now inversion B.
  - inversion B as [|name' text' ds' l' fs' D' F'|name' n' l' fs' N' F']; subst.
    + rewrite (declares_unique _ _ _ D D'). f_equal. auto.
    + now destruct (N' (inl text)).
  - inversion B as [|name' text' ds' l' fs' D' F'|name' n' l' fs' N' F']; subst; [now destruct (N (inl text'))|auto].
Qed.

Lemma versions_unique dir l a : versions_of dir l a -> forall b, versions_of dir l b -> a = b.
Proof.
  induction 1 as [|name l l' fs r vs L F V IH|name n r vs N V IH]; intros b B.
  - now inversion B.
  - inversion B as [|name1 l1 l1' fs1 r1 vs1 L1 F1 V1|name1 n1 r1 vs1 N1 V1]; subst.
    + rewrite <- (listed_unique _ _ _ L L1) in F1. rewrite (files_unique _ _ _ F _ F1). f_equal. auto.
    + now destruct (N1 (inl l)).
  - inversion B as [|name1 l1 l1' fs1 r1 vs1 L1 F1 V1|name1 n1 r1 vs1 N1 V1]; subst; [now destruct (N (inl l1))|auto].
Qed.

Lemma services_unique dir l a : services_of dir l a -> forall b, services_of dir l b -> a = b.
Proof.
  induction 1 as [|name l l' fs r vs L F V IH|name n r vs N V IH]; intros b B.
  - now inversion B.
  - inversion B as [|name1 l1 l1' fs1 r1 vs1 L1 F1 V1|name1 n1 r1 vs1 N1 V1]; subst.
    + rewrite <- (listed_unique _ _ _ L L1) in F1. rewrite (versions_unique _ _ _ F _ F1). f_equal. auto.
    + now destruct (N1 (inl l)).
  - inversion B as [|name1 l1 l1' fs1 r1 vs1 L1 F1 V1|name1 n1 r1 vs1 N1 V1]; subst; [now destruct (N (inl l1))|auto].
Qed.

Lemma contains_unique lookup dir a b : contains lookup dir a -> contains lookup dir b -> a = b.
Proof.
  intros (l & l' & E & L & S) (k & k' & E' & L' & S'). rewrite E in E'. injection E' as <-. rewrite <- (listed_unique _ _ _ L L') in S'.
  now apply (services_unique dir l').
Qed.

(** * The order of the entries doesn't matter *)

Definition same_entry (a b : string * node) : Prop := fst a = fst b /\ same_node (snd a) (snd b).

Lemma insert_same a b l k : same_entry a b -> Forall2 same_entry l k -> Forall2 same_entry (insert_sorted entry_less a l) (insert_sorted entry_less b k).
Proof.
  intros H. induction 1 as [|x y l k X F IH]; cbn [insert_sorted]; [constructor; auto|].
  assert (E : entry_less a x = entry_less b y) by (unfold entry_less; destruct H as [-> _], X as [-> _]; reflexivity).
  rewrite E. destruct (entry_less b y).
  - apply Forall2_cons; [exact H|]. now apply Forall2_cons.
  - now apply Forall2_cons.
Qed.

Lemma sort_same l k : Forall2 same_entry l k -> Forall2 same_entry (read_dir l) (read_dir k).
Proof.
  unfold read_dir. change (fun a b : string * node => Z.ltb (str_compare (fst a) (fst b)) 0) with entry_less.
  induction 1 as [|x y l k X F IH]; [constructor|]. cbn [sort]. now apply insert_same.
Qed.

Lemma read_dir_same l l' k : NoDup (map fst l) -> Permutation l l' -> Forall2 same_entry l' k -> Forall2 same_entry (read_dir l) (read_dir k).
Proof.
  intros D P F. replace (read_dir l) with (read_dir l'); [now apply sort_same|]. symmetry.
  exact (sort_perm_eq entry_less entry_trans entry_irrefl l l' (different_separated l D) P).
Qed.

Lemma each_same {A B} (f f' : A -> B -> outcome B) l k : Forall2 (fun a a' => forall b, f a b = f' a' b) l k -> forall b, each f l b = each f' k b.
Proof. induction 1 as [|x y l k X F IH]; intros b; [reflexivity|]. cbn [each]. rewrite X. destruct (f' y b); auto. Qed.

Lemma Forall2_in_left {A B} (Q : A -> B -> Prop) (Q' : A -> B -> Prop) l k : Forall2 Q l k -> (forall a b, In a l -> Q a b -> Q' a b) -> Forall2 Q' l k.
Proof. induction 1; intros H1; constructor; [apply H1; simpl; auto|]. apply IHForall2. intros. apply H1; simpl; auto. Qed.

Section Order.
  Context (recover : string -> list report * outcome (list decl)).

  Lemma version_entry_same dir a b : same_entry a b -> forall st, version_entry recover dir a st = version_entry recover dir b st.
  Proof. destruct a as [x n], b as [y n']. intros [E S] st. cbn in E, S. subst y. unfold version_entry. cbn [fst snd]. inversion S; subst; reflexivity. Qed.

  Lemma version_same dir name n n' : different_names n -> same_node n n' -> forall e, n = Directory e -> exists e', n' = Directory e' /\
    forall sg, load_version_dir recover dir name e sg = load_version_dir recover dir name e' sg.
  Proof.
    intros D S e ->. inversion S as [| |x|l l' k P F]; subst; [eauto|]. inversion D as [| | |x Dx Dn]; subst. eexists. split; [reflexivity|].
    intros [s g]. unfold load_version_dir. cbv zeta. erewrite (each_same (version_entry recover dir) (version_entry recover dir) (read_dir l) (read_dir k)); [reflexivity|].
    eapply Forall2_in_left; [exact (read_dir_same l l' k Dx P F)|]. intros a b _ H. apply version_entry_same. exact H.
  Qed.

  Lemma service_entry_same dir a b : different_names (snd a) -> same_entry a b -> forall sg, service_entry recover dir a sg = service_entry recover dir b sg.
  Proof.
    destruct a as [x n], b as [y n']. intros D [E S] sg. cbn in D, E, S. subst y. unfold service_entry. cbn [fst snd].
    destruct n as [c|e|]; [inversion S; subst; reflexivity| |inversion S; subst; reflexivity].
    destruct (version_same (path_join [dir; x]) x _ _ D S e eq_refl) as (e' & -> & H). apply H.
  Qed.

  Lemma service_same dir name n n' : different_names n -> same_node n n' -> forall e, n = Directory e -> exists e', n' = Directory e' /\
    forall g, load_service_dir recover dir name e g = load_service_dir recover dir name e' g.
  Proof.
    intros D S e ->. inversion S as [| |x|l l' k P F]; subst; [eauto|]. inversion D as [| | |x Dx Dn]; subst. eexists. split; [reflexivity|].
    intros g. unfold load_service_dir. cbv zeta. erewrite (each_same (service_entry recover dir) (service_entry recover dir) (read_dir l) (read_dir k)); [reflexivity|].
    eapply Forall2_in_left; [exact (read_dir_same l l' k Dx P F)|]. intros a b I H. apply service_entry_same; [|exact H].
    destruct a as [x m]. apply (Dn x m). apply (proj1 (sort_in _ _ _)) in I. exact I.
  Qed.

  Lemma model_entry_same dir a b : different_names (snd a) -> same_entry a b -> forall g, model_entry recover dir a g = model_entry recover dir b g.
  Proof.
    destruct a as [x n], b as [y n']. intros D [E S] sg. cbn in D, E, S. subst y. unfold model_entry. cbn [fst snd].
    destruct n as [c|e|]; [inversion S; subst; reflexivity| |inversion S; subst; reflexivity].
    destruct (service_same (path_join [dir; x]) x _ _ D S e eq_refl) as (e' & -> & H). apply H.
  Qed.

  Lemma order_irrelevant lookup lookup' paths reports : proper lookup -> same_directories lookup lookup' ->
    read_paths recover lookup paths reports = read_paths recover lookup' paths reports.
  Proof.
    intros P S. unfold read_paths. rewrite (each_same (load_model_dir recover lookup) (load_model_dir recover lookup') paths paths); [reflexivity|].
    clear reports. induction paths as [|dir paths IH]; constructor; auto. intros g. unfold load_model_dir.
    destruct (S dir) as [->|(n & n' & E & E' & Q)]; [reflexivity|]. rewrite E, E'. pose proof (P _ _ E) as D.
    inversion Q as [| |x|l l' k Pm F]; subst; try reflexivity. inversion D as [| | |x Dx Dn]; subst.
    apply each_same. eapply Forall2_in_left; [exact (read_dir_same l l' k Dx Pm F)|]. intros a b I H. apply model_entry_same; [|exact H].
    destruct a as [x m]. apply (Dn x m). apply (proj1 (sort_in _ _ _)) in I. exact I.
  Qed.
End Order.

(** * All the regular files have to be in the language *)

Lemma files_all dir l fs : files_of dir l fs -> forall name c, In (name, Regular c) l -> exists text ds, c = inl text /\ declares text ds /\ In (path_join [dir; name], ds) fs.
Proof.
  induction 1 as [|name text ds l fs D F IH|name n l fs N F IH]; intros nm c I; [destruct I| |].
  - destruct I as [E|I].
    + injection E as <- <-. exists text, ds. repeat split; auto. now left.
    + destruct (IH _ _ I) as (t & d & E & Dt & J). exists t, d. repeat split; auto. now right.
  - destruct I as [E|I]; [injection E as _ ->; now destruct (N c)|]. destruct (IH _ _ I) as (t & d & E & Dt & J). exists t, d. auto.
Qed.

Lemma versions_all dir l vs : versions_of dir l vs -> forall name e, In (name, Directory e) l ->
  exists k k' fs, e = inl k /\ listed k k' /\ files_of (path_join [dir; name]) k' fs /\ In (name, fs) vs.
Proof.
  induction 1 as [|name l l' fs r vs L F V IH|name n r vs N V IH]; intros nm e I; [destruct I| |].
  - destruct I as [E|I].
    + injection E as <- <-. exists l, l', fs. repeat split; auto; try apply L. now left.
    + destruct (IH _ _ I) as (k & k' & f & E & Lk & Fk & J). exists k, k', f. repeat split; auto; try apply Lk. now right.
  - destruct I as [E|I]; [injection E as _ ->; now destruct (N e)|]. exact (IH _ _ I).
Qed.

Lemma services_all dir l ss : services_of dir l ss -> forall name e, In (name, Directory e) l ->
  exists k k' vs, e = inl k /\ listed k k' /\ versions_of (path_join [dir; name]) k' vs /\ In (name, vs) ss.
Proof.
  induction 1 as [|name l l' fs r vs L F V IH|name n r vs N V IH]; intros nm e I; [destruct I| |].
  - destruct I as [E|I].
    + injection E as <- <-. exists l, l', fs. repeat split; auto; try apply L. now left.
    + destruct (IH _ _ I) as (k & k' & f & E & Lk & Fk & J). exists k, k', f. repeat split; auto; try apply Lk. now right.
  - destruct I as [E|I]; [injection E as _ ->; now destruct (N e)|]. exact (IH _ _ I).
Qed.

Lemma in_listed l l' (x : string * node) : listed l l' -> In x l -> In x l'.
Proof. intros [P _]. now apply Permutation_in. Qed.

Lemma accepted_files lookup paths m dir : accepted lookup paths m -> In dir paths ->
  exists services, lookup dir = Found (Directory (inl services)) /\
  forall s e, In (s, Directory e) services -> exists versions, e = inl versions /\
  forall v e, In (v, Directory e) versions -> exists files, e = inl files /\
  forall f c, In (f, Regular c) files -> exists text ds, c = inl text /\ declares text ds.
Proof.
  intros (inputs & rs & F & _) I. assert (C : exists ss, contains lookup dir ss).
  { clear rs. induction F as [|d ss paths inputs C F IH]; [destruct I|]. destruct I as [<-|I]; eauto. }
  destruct C as (ss & l & l' & E & L & S). exists l. split; [exact E|]. intros s e J.
  destruct (services_all _ _ _ S _ _ (in_listed _ _ _ L J)) as (k & k' & vs & -> & Lk & V & _). exists k. split; [reflexivity|]. intros v e J1.
  destruct (versions_all _ _ _ V _ _ (in_listed _ _ _ Lk J1)) as (q & q' & fs & -> & Lq & Q & _). exists q. split; [reflexivity|]. intros f c J2.
  destruct (files_all _ _ _ Q _ _ (in_listed _ _ _ Lq J2)) as (t & d & Ec & D & _). eauto.
Qed.

Lemma read_paths_reports recover lookup paths r rs : read_paths recover lookup paths [] = Done (r, rs) -> (errors_in rs 0 <-> exists m, r = ROk m).
Proof.
  intros E. rewrite no_count. destruct r as [m|e].
  - apply read_paths_fine in E. split; eauto.
  - apply read_paths_error in E. split; [lia|]. intros [m H]. discriminate.
Qed.

Lemma file_rejected lookup paths m dir c : In dir paths -> lookup dir = Found (Regular c) -> ~ accepted lookup paths m.
Proof. intros I E A. destruct (accepted_files _ _ _ _ A I) as (ss & E' & _). congruence. Qed.
