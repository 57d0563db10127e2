(** Proofs about the helper functions: headers, paths and polling. *)
From Coq Require Import Ascii String Bool Arith ZArith NArith Lia List.
From Verif Require Import GoStrings GoStringsProofs GoMap GoMapProofs ReporterModel GoTimeModel HelpersModel HelpersSpec.
Import ListNotations.
Local Open Scope string_scope.

(** * Headers *)

Lemma upper_of_lower c : to_upper (to_lower c) = to_upper c.
Proof. destruct c as [[] [] [] [] [] [] [] []]; reflexivity. Qed.
Lemma lower_of_lower c : to_lower (to_lower c) = to_lower c.
Proof. destruct c as [[] [] [] [] [] [] [] []]; reflexivity. Qed.
Lemma dash_of_lower c : Ascii.eqb (to_lower c) "-" = Ascii.eqb c "-".
Proof. destruct c as [[] [] [] [] [] [] [] []]; reflexivity. Qed.
Lemma token_of_lower c : is_token_char (to_lower c) = is_token_char c.
Proof. destruct c as [[] [] [] [] [] [] [] []]; reflexivity. Qed.
Lemma lower_of_upper c : to_lower (to_upper c) = to_lower c.
Proof. destruct c as [[] [] [] [] [] [] [] []]; reflexivity. Qed.

Lemma canonical_lower b s : canonical_from b (str_map to_lower s) = canonical_from b s.
Proof.
  revert b. induction s as [|c s IH]; intros b; [reflexivity|]. cbn [str_map canonical_from]. rewrite IH, dash_of_lower.
  destruct b; [now rewrite upper_of_lower|now rewrite lower_of_lower].
Qed.

Lemma canonical_case b s : str_map to_lower (canonical_from b s) = str_map to_lower s.
Proof.
  revert b. induction s as [|c s IH]; intros b; [reflexivity|]. cbn [str_map canonical_from]. rewrite IH.
  destruct b; [now rewrite lower_of_upper|now rewrite lower_of_lower].
Qed.

Lemma token_lower s : str_all is_token_char (str_map to_lower s) = str_all is_token_char s.
Proof. induction s as [|c s IH]; [reflexivity|]. cbn [str_map str_all]. now rewrite IH, token_of_lower. Qed.

Lemma canonical_names s t : str_all is_token_char s = true -> (canonical_key s = canonical_key t <-> str_lower s = str_lower t).
Proof.
  intros H. unfold canonical_key, str_lower. rewrite H. split.
  - destruct (str_all is_token_char t) eqn:T; intros E.
    + rewrite <- (canonical_case true s), <- (canonical_case true t). now rewrite E.
    + rewrite <- E in T. rewrite <- token_lower, canonical_case, token_lower in T. congruence.
  - intros E. assert (T : str_all is_token_char t = true) by (rewrite <- token_lower, <- E, token_lower; exact H). rewrite T.
    rewrite <- (canonical_lower true s), E. apply canonical_lower.
Qed.

(** * Paths *)

Lemma append_nil s : s ++ "" = s.
Proof. induction s; cbn; congruence. Qed.
Lemma append_assoc s t u : (s ++ t) ++ u = s ++ t ++ u.
Proof. induction s; cbn; congruence. Qed.

Lemma slashes_snoc n : slashes n ++ "/" = String "/" (slashes n).
Proof. induction n; cbn; congruence. Qed.

Lemma trim_left_slashes n s : trim_left_func is_slash (slashes n ++ s) = trim_left_func is_slash s.
Proof. induction n; cbn; auto. Qed.

Lemma trim_right_slashes n s : trim_right_func is_slash (s ++ slashes n) = trim_right_func is_slash s.
Proof.
  induction s as [|c s IH]; cbn.
  - induction n as [|n IH]; [reflexivity|]. cbn. now rewrite IH.
  - now rewrite IH.
Qed.

Lemma trim_left_spec s : exists i, s = slashes i ++ trim_left_func is_slash s /\
  (forall r, trim_left_func is_slash s <> String "/" r).
Proof.
  induction s as [|c s (i & E & N)]; [exists 0; split; [reflexivity|discriminate]|]. cbn. unfold is_slash at 1 3. destruct (Ascii.eqb_spec c "/") as [->|D].
  - exists (S i). cbn. split; [congruence|exact N].
  - exists 0. cbn. split; [reflexivity|]. intros r H. congruence.
Qed.

Lemma trim_right_spec s : exists j, s = trim_right_func is_slash s ++ slashes j /\
  (forall r, trim_right_func is_slash s <> r ++ "/").
Proof.
  induction s as [|c s (j & E & N)].
  - exists 0. split; [reflexivity|]. intros [|]; discriminate.
  - cbn. destruct (trim_right_func is_slash s) as [|d u] eqn:T.
    + unfold is_slash. destruct (Ascii.eqb_spec c "/") as [->|D].
      * exists (S j). cbn in *. split; [congruence|]. intros [|]; discriminate.
      * exists j. cbn in *. split; [congruence|]. intros [|c' r] H; cbn in H; [congruence|]. injection H as _ H. now destruct r.
    + exists j. split; [rewrite E at 1; reflexivity|]. intros [|c' r] H; cbn in H; [discriminate|]. injection H as _ H. now apply (N r).
Qed.

Lemma trim_left_keep c s : is_slash c = false -> trim_left_func is_slash (String c s) = String c s.
Proof. intros H. cbn. now rewrite H. Qed.

Lemma trim_right_keep s c : is_slash c = false -> trim_right_func is_slash (s ++ String c "") = s ++ String c "".
Proof.
  intros H. induction s as [|d s IH]; cbn; [now rewrite H|]. rewrite IH. now destruct s.
Qed.

Lemma segments_spec path : exists i j q, path = slashes i ++ q ++ slashes j /\
  (forall r, q <> String "/" r) /\ (forall r, q <> r ++ "/") /\
  str_join "/" (segments path) = q /\ Forall (fun s => no_char "/" s = true) (segments path).
Proof.
  destruct (trim_left_spec path) as (i & E1 & N1). destruct (trim_right_spec (trim_left_func is_slash path)) as (j & E2 & N2).
  exists i, j, (trim_right_func is_slash (trim_left_func is_slash path)). rewrite <- E2. split; [exact E1|]. split.
  - intros r H. rewrite H in E2. apply (N1 (r ++ slashes j)). rewrite E2. reflexivity.
  - split; [exact N2|]. unfold segments. split; [apply split_join|apply split_clean].
Qed.

Lemma segment_no_char s : segment s -> s <> "" /\ no_char "/" s = true.
Proof. intros [N H]. split; [exact N|exact H]. Qed.

Lemma join_first l : l <> [] -> Forall segment l -> exists c s, str_join "/" l = String c s /\ is_slash c = false.
Proof.
  destruct l as [|x l]; [congruence|]. intros _ F. inversion F as [|? ? [N H] _]; subst. destruct x as [|c x]; [congruence|].
  cbn in H. apply andb_true_iff in H. destruct H as [H _]. apply negb_true_iff in H. destruct l as [|y l].
  - exists c, x. auto.
  - exists c, (x ++ "/" ++ str_join "/" (y :: l)). auto.
Qed.

Lemma snoc_cases s : s = "" \/ exists r c, s = r ++ String c "".
Proof. induction s as [|c s IH]; [auto|]. right. destruct IH as [->|(r & d & ->)]; [now exists "", c|]. now exists (String c r), d. Qed.

Lemma str_all_snoc p s c : str_all p (s ++ String c "") = str_all p s && p c.
Proof. induction s; cbn; [now rewrite andb_true_r|]. now rewrite IHs, andb_assoc. Qed.

Lemma join_last l : l <> [] -> Forall segment l -> exists s c, str_join "/" l = s ++ String c "" /\ is_slash c = false.
Proof.
  induction l as [|x l IH]; [congruence|]. intros _ F. inversion F as [|? ? [N H] F']; subst. destruct l as [|y l].
  - cbn. destruct (snoc_cases x) as [->|(r & c & ->)]; [congruence|]. exists r, c. split; [reflexivity|].
    rewrite str_all_snoc in H. apply andb_true_iff in H. destruct H as [_ H]. now apply negb_true_iff in H.
  - destruct (IH ltac:(discriminate) F') as (s & c & E & C). exists (x ++ "/" ++ s), c. split; [|exact C].
    change (str_join "/" (x :: y :: l)) with (x ++ "/" ++ str_join "/" (y :: l)). rewrite E. cbn. rewrite append_assoc. reflexivity.
Qed.

Lemma split_join_segments l : l <> [] -> Forall segment l -> str_split "/" (str_join "/" l) = l.
Proof.
  intros N F. apply join_split; auto. eapply Forall_impl; [|exact F]. intros s H. now apply segment_no_char.
Qed.

Lemma segments_join i j l : l <> [] -> Forall segment l -> segments (slashes i ++ str_join "/" l ++ slashes j) = l.
Proof.
  intros N F. unfold segments. rewrite trim_left_slashes.
  destruct (join_first l N F) as (c & s & E & C). rewrite E. change (String c s ++ slashes j) with (String c (s ++ slashes j)).
  rewrite trim_left_keep by auto. change (String c (s ++ slashes j)) with (String c s ++ slashes j). rewrite <- E, trim_right_slashes.
  destruct (join_last l N F) as (u & d & E' & D). rewrite E', trim_right_keep by auto. rewrite <- E'. now apply split_join_segments.
Qed.

(** * Polling *)

Section Polling.
  Context (W R E : Type) (task : W -> Z * option R * option E * W) (now : W -> Z) (sleep : Z -> W -> W).

  Lemma eval_status_spec l s : eval_status l s = true <-> In s l.
  Proof.
    induction l as [|x l IH]; cbn; [split; [discriminate|contradiction]|]. destruct (Z.eqb_spec s x) as [->|D].
    - tauto.
    - rewrite IH. split; [auto|]. intros [->|H]; [congruence|auto].
  Qed.

  Lemma eval_loop_spec l (r : R) : eval_loop R l r = true <-> forall p, In p l -> p r = true.
  Proof.
    induction l as [|p l IH]; cbn; [tauto|]. destruct (p r) eqn:P; cbn.
    - rewrite IH. split; [intros H q [<-|I]; auto|auto].
    - split; [discriminate|]. intros H. rewrite <- P. apply H. auto.
  Qed.

  Lemma eval_predicates_spec l (o : option R) : eval_predicates R l o = true <-> l = [] \/ exists r, o = Some r /\ forall p, In p l -> p r = true.
  Proof.
    destruct o as [r|]; cbn.
    - rewrite eval_loop_spec. split; [eauto|]. intros [->|(r' & Er & H)]; [cbn; tauto|]. now injection Er as ->.
    - destruct l; cbn; split; auto; try discriminate. intros [H|(r & Er & _)]; discriminate.
  Qed.

  Definition default_statuses (l : list Z) : list Z := if Nat.eqb (length l) 0 then [200%Z] else l.

  Lemma accepted_spec statuses predicates w :
    eval_status (default_statuses statuses) (attempt_status W R E task w) && eval_predicates R predicates (attempt_result W R E task w) = true <->
    accepted W R E task statuses predicates w.
  Proof.
    rewrite andb_true_iff, eval_status_spec, eval_predicates_spec. unfold accepted. apply and_iff_compat_r.
    unfold default_statuses. destruct statuses as [|s l]; cbn [length Nat.eqb In].
    - split; [intros [H|[]]; right; auto|]. intros [[]|[_ H]]; auto.
    - split; [tauto|]. intros [H|[H _]]; [tauto|discriminate].
  Qed.

  Lemma poll_loop_spec deadline interval statuses predicates : forall n w r,
    poll_loop W R E task now sleep n deadline interval (default_statuses statuses) predicates w = Some r ->
    exists l last, p_starts r = (l ++ [last])%list /\ hd_error (p_starts r) = Some w /\ chained W R E task sleep interval (p_starts r) /\
      Forall (fun w => ~ broken W R E task w /\ ~ accepted W R E task statuses predicates w /\ ~ late W R E task now deadline interval w) l /\
      (broken W R E task last \/ accepted W R E task statuses predicates last \/ late W R E task now deadline interval last) /\
      p_result r = attempt_result W R E task last /\ p_error r = option_map inl (attempt_error W R E task last) /\
      p_final r = after_attempt W R E task last.
  Proof.
    induction n as [|n IH]; intros w r H; [discriminate|]. cbn [poll_loop] in H.
    assert (B : forall A, (match snd (fst (task w)) with Some _ => true | None => false end && Z.eqb (fst (fst (fst (task w)))) 0 = A) ->
      (A = true <-> broken W R E task w)).
    { intros A <-. unfold broken, attempt_error, attempt_status. rewrite andb_true_iff, Z.eqb_eq.
      destruct (snd (fst (task w))); split; intros [H1 H2]; split; auto; try discriminate; congruence. }
    assert (Ac := accepted_spec statuses predicates w). unfold attempt_status, attempt_result in Ac.
    assert (La : forall x, task w = x -> Z.ltb deadline (now (snd x) + interval) = true <-> late W R E task now deadline interval w).
    { intros x <-. unfold late, after_attempt. apply Z.ltb_lt. }
    destruct (task w) as [[[status result] err] w'] eqn:T. cbn [fst snd] in *. specialize (B _ eq_refl). specialize (La _ eq_refl). cbn [snd] in La.
    assert (Done : Some (MkPolled W R E result (option_map inl err) [w] w') = Some r ->
      (broken W R E task w \/ accepted W R E task statuses predicates w \/ late W R E task now deadline interval w) ->
      exists l last, p_starts r = (l ++ [last])%list /\ hd_error (p_starts r) = Some w /\ chained W R E task sleep interval (p_starts r) /\
      Forall (fun w => ~ broken W R E task w /\ ~ accepted W R E task statuses predicates w /\ ~ late W R E task now deadline interval w) l /\
      (broken W R E task last \/ accepted W R E task statuses predicates last \/ late W R E task now deadline interval last) /\
      p_result r = attempt_result W R E task last /\ p_error r = option_map inl (attempt_error W R E task last) /\
      p_final r = after_attempt W R E task last).
    { intros Er O. injection Er as <-. exists [], w. cbn. unfold attempt_result, attempt_error, after_attempt. rewrite T. cbn. repeat (split; auto). }
    destruct (match err with Some _ => true | None => false end && Z.eqb status 0) eqn:B1.
    { apply Done; auto. left. now apply B. }
    destruct (eval_status (default_statuses statuses) status && eval_predicates R predicates result) eqn:A1.
    { apply Done; auto. right. left. now apply Ac. }
    destruct (Z.ltb deadline (now w' + interval)) eqn:L1.
    { apply Done; auto. right. right. now apply La. }
    destruct (poll_loop W R E task now sleep n deadline interval (default_statuses statuses) predicates (sleep interval w')) as [r'|] eqn:P; [|discriminate].
    injection H as <-. destruct (IH _ _ P) as (l & last & I1 & I2 & I3 & I4 & I5 & I6 & I7 & I8). cbn [p_starts p_result p_error p_final].
    exists (w :: l), last. split; [cbn; now rewrite I1|]. split; [reflexivity|]. split.
    { destruct (p_starts r') as [|x s]; [discriminate|]. cbn in I2. injection I2 as ->. split; [|exact I3]. unfold after_attempt. now rewrite T. }
    split. { constructor; [|exact I4]. split; [|split].
      - intros X. apply B in X. discriminate.
      - intros X. apply Ac in X. discriminate.
      - intros X. apply La in X. discriminate. }
    split; [exact I5|]. split; [exact I6|]. split; [exact I7|exact I8].
  Qed.

  Lemma poll_more deadline interval statuses predicates : forall n m w r, n <= m ->
    poll_loop W R E task now sleep n deadline interval statuses predicates w = Some r ->
    poll_loop W R E task now sleep m deadline interval statuses predicates w = Some r.
  Proof.
    induction n as [|n IH]; intros m w r L H; [discriminate|]. destruct m as [|m]; [lia|]. cbn [poll_loop] in *.
    destruct (task w) as [[[status result] err] w']. repeat match goal with |- (if ?c then _ else _) = _ => destruct c; auto end.
    destruct (poll_loop W R E task now sleep n deadline interval statuses predicates (sleep interval w')) as [r'|] eqn:P; [|discriminate].
    rewrite (IH m _ _ ltac:(lia) P). exact H.
  Qed.

  Lemma poll_ends deadline interval statuses predicates : (0 < interval)%Z ->
    (forall w, now w <= now (after_attempt W R E task w))%Z -> (forall w, now w + interval <= now (sleep interval w))%Z ->
    forall k w, (deadline - now w < Z.of_nat k * interval)%Z -> forall f, f = S k ->
    exists r, poll_loop W R E task now sleep f deadline interval statuses predicates w = Some r /\ length (p_starts r) <= S k.
  Proof.
    intros I Ht Hs. induction k as [|k IH]; intros w L f ->; cbn [poll_loop]; specialize (Ht w); unfold after_attempt in Ht;
      destruct (task w) as [[[status result] err] w'] eqn:T; cbn [snd] in Ht;
      (destruct (match err with Some _ => true | None => false end && Z.eqb status 0); [eexists; split; [reflexivity|cbn; lia]|]);
      (destruct (eval_status statuses status && eval_predicates R predicates result); [eexists; split; [reflexivity|cbn; lia]|]);
      (destruct (Z.ltb_spec deadline (now w' + interval)); [eexists; split; [reflexivity|cbn; lia]|]).
    - lia.
    - specialize (Hs w'). destruct (IH (sleep interval w') ltac:(lia) (S k) eq_refl) as (r & Er & Lr). cbn [poll_loop] in Er. rewrite Er. eexists. split; [reflexivity|]. cbn. lia.
  Qed.

  (** Statements about the function. *)

  Lemma poll_context_spec n deadline interval statuses predicates w r : (0 < interval)%Z ->
    poll_context W R E task now sleep n (Some deadline) interval statuses predicates w = Some r ->
    exists l last, p_starts r = (l ++ [last])%list /\ hd_error (p_starts r) = Some w /\ chained W R E task sleep interval (p_starts r) /\
      Forall (fun w => ~ broken W R E task w /\ ~ accepted W R E task statuses predicates w /\ ~ late W R E task now deadline interval w) l /\
      (broken W R E task last \/ accepted W R E task statuses predicates last \/ late W R E task now deadline interval last) /\
      p_result r = attempt_result W R E task last /\ p_error r = option_map inl (attempt_error W R E task last) /\
      p_final r = after_attempt W R E task last.
  Proof.
    intros I. unfold poll_context. destruct (Z.leb_spec interval 0); [lia|]. apply poll_loop_spec.
  Qed.

  Lemma poll_context_ends deadline interval statuses predicates w : (0 < interval)%Z ->
    (forall w, now w <= now (after_attempt W R E task w))%Z -> (forall w, now w + interval <= now (sleep interval w))%Z ->
    exists n r, (forall m, n <= m -> poll_context W R E task now sleep m (Some deadline) interval statuses predicates w = Some r) /\
      (Z.of_nat (length (p_starts r)) <= Z.max 0 ((deadline - now w) / interval) + 2)%Z.
  Proof.
    intros I Ht Hs. set (k := Z.to_nat ((deadline - now w) / interval + 1)). unfold poll_context. destruct (Z.leb_spec interval 0); [lia|].
    destruct (poll_ends deadline interval (default_statuses statuses) predicates I Ht Hs k w) with (f := S k) as (r & Er & Lr).
    - subst k. destruct (Z.le_gt_cases 0 ((deadline - now w) / interval + 1)) as [G|G].
      + rewrite Z2Nat.id by auto. assert (D := Z.mod_pos_bound (deadline - now w) interval I). assert (M := Z.div_mod (deadline - now w) interval ltac:(lia)). nia.
      + destruct ((deadline - now w) / interval + 1)%Z eqn:Q; try lia. cbn. assert (M := Z.div_mod (deadline - now w) interval ltac:(lia)).
        assert (D := Z.mod_pos_bound (deadline - now w) interval I). nia.
    - reflexivity.
    - exists (S k), r. split.
      + intros m Lm. fold (default_statuses statuses). exact (poll_more _ _ _ _ _ _ _ _ Lm Er).
      + subst k. lia.
  Qed.

  Lemma poll_context_rejected n deadline interval statuses predicates w : deadline = None \/ (interval <= 0)%Z ->
    exists m, poll_context W R E task now sleep n deadline interval statuses predicates w = Some (MkPolled W R E None (Some (inr m)) [] w).
  Proof.
    unfold poll_context. destruct deadline as [d|]; [|eauto]. intros [H|H]; [discriminate|]. destruct (Z.leb_spec interval 0); [eauto|lia].
  Qed.
End Polling.
