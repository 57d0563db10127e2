(** Proofs about the settings of the polling requests, the setters of the requests and the getters of the responses. *)
From Coq Require Import Ascii String Bool Arith ZArith NArith Lia List.
From Verif Require Import GoStrings GoMap GoMapProofs NamesModel ConceptsModel BindingModel GoNamesModel ClientsModel HelpersModel HelpersSpec HelpersProofs3
  JsonModel JsonTextModel JsonLexModel ApiErrorModel ObjectsModel ObjectsSpec ObjectsProofs RequestModel RequestSpec RequestProofs RequestProofs5 RequestProofs6 PollSpec.
Import ListNotations.
Local Open Scope string_scope.

Definition interval_of (c : poll_call) (z : Z) : Z := match c with Interval y => y | _ => z end.
Definition statuses_of (c : poll_call) : list Z := match c with Status y => [y] | _ => [] end.
Definition predicates_of (c : poll_call) : list (response -> bool) := match c with Predicate f => [f] | _ => [] end.

Lemma calls_fold cs : forall r, let q := fold_left call_poll cs r in
  pr_request q = pr_request r /\ pr_interval q = fold_left (fun z c => interval_of c z) cs (pr_interval r) /\
  pr_statuses q = (pr_statuses r ++ flat_map statuses_of cs)%list /\
  pr_predicates q = (pr_predicates r ++ flat_map predicates_of cs)%list.
Proof.
  induction cs as [|c cs IH]; intros r; cbn zeta; cbn [fold_left flat_map].
  - now rewrite !app_nil_r.
  - destruct (IH (call_poll r c)) as (A & B & C & D). cbn zeta in *. rewrite A, B, C, D.
    destruct c; cbn; rewrite <- ?app_assoc; cbn; now rewrite ?app_nil_r.
Qed.

Lemma last_interval_fold cs z y : last_interval cs z -> fold_left (fun z c => interval_of c z) cs y = z.
Proof.
  intros L. destruct L as [a b z N]. rewrite fold_left_app. cbn [fold_left interval_of]. revert N. generalize z.
  induction b as [|c b IH]; intros x N; [reflexivity|]. cbn [fold_left]. replace (interval_of c x) with x.
  - apply IH. intros w I. apply (N w). now right.
  - destruct c; cbn; auto. destruct (N z0). now left.
Qed.

Lemma statuses_in cs s : In s (flat_map statuses_of cs) <-> In (Status s) cs.
Proof.
  rewrite in_flat_map. split.
  - intros (c & I & J). destruct c; cbn in J; try contradiction. destruct J as [->|[]]; auto.
  - intros I. exists (Status s). split; cbn; auto.
Qed.
Lemma predicates_in cs f : In f (flat_map predicates_of cs) <-> In (Predicate f) cs.
Proof.
  rewrite in_flat_map. split.
  - intros (c & I & J). destruct c; cbn in J; try contradiction. destruct J as [->|[]]; auto.
  - intros I. exists (Predicate f). split; cbn; auto.
Qed.

Section Sending.
  Context (W E : Type) (transport : W -> http_request -> reply E * W).
  Context (o : oracle) (incomplete : json -> any) (show_float : Z -> string) (show_any : any -> string) (spare : nat) (v : version).
  Notation send := (send_context W E transport o incomplete show_float show_any spare v).
  Notation task := (poll_task W E transport o incomplete show_float show_any spare v).

  Lemma task_is m r x rs e w' h' l : send m r (snd x) (fst x) = Finished W E rs e w' h' l ->
    task m r x = (match rs with Some r => rs_status r | None => 0%Z end, rs, e, (w', h')).
  Proof. intros H. unfold poll_task. rewrite H. now destruct rs. Qed.

  Lemma accepted_is m r x rs e w' h' l cs : send m r (snd x) (fst x) = Finished W E rs e w' h' l ->
    accepted (W * heap) response (failure E) (task m r) (flat_map statuses_of cs) (flat_map predicates_of cs) x <-> acceptable cs rs.
  Proof.
    intros H. unfold accepted, acceptable, attempt_status, attempt_result. rewrite (task_is _ _ _ _ _ _ _ _ H). cbn [fst snd].
    set (s := match rs with Some r => rs_status r | None => 0%Z end).
    assert (A : (In s (flat_map statuses_of cs) \/ flat_map statuses_of cs = [] /\ s = 200%Z) <->
                (In (Status s) cs \/ (forall y, ~ In (Status y) cs) /\ s = 200%Z)).
    { rewrite statuses_in. split; (intros [I|[I J]]; [now left|right]); (split; auto).
      - intros y K. apply statuses_in in K. rewrite I in K. contradiction.
      - destruct (flat_map statuses_of cs) as [|y ys] eqn:F; auto. destruct (I y). apply statuses_in. rewrite F. now left. }
    assert (B : (flat_map predicates_of cs = [] \/ exists q, rs = Some q /\ forall p, In p (flat_map predicates_of cs) -> p q = true) <->
                (forall f, In (Predicate f) cs -> exists q, rs = Some q /\ f q = true)).
    { split.
      - intros [N|(q & -> & Q)] f I; apply predicates_in in I; [rewrite N in I; contradiction|]. exists q. auto.
      - intros Q. destruct (flat_map predicates_of cs) as [|f fs] eqn:F; [now left|right].
        destruct (Q f) as (q & Rq & _); [apply predicates_in; rewrite F; now left|]. exists q. split; auto.
        intros p I. rewrite <- F in I. apply predicates_in in I. destruct (Q p I) as (q' & Rq' & T). congruence. }
    rewrite A, B. reflexivity.
  Qed.

  Lemma polled_outcome now sleep n deadline m cs z h w res rs0 :
    let q := fold_left call_poll cs (MkPollRequest rs0 0 [] []) in
    request_valid h rs0 -> request_body_params v m = [] -> last_interval cs z -> (0 < z)%Z ->
    start_context W E transport o incomplete show_float show_any spare v now sleep n (Some deadline) m q h w = Some res ->
    exists l last rs e,
      p_starts res = (l ++ [last])%list /\ hd_error (p_starts res) = Some (w, h) /\
      (exists r, send m rs0 (snd last) (fst last) = Finished W E rs e (fst (p_final res)) (snd (p_final res)) [r]) /\
      p_result res = rs /\ p_error res = option_map inl e /\
      (no_answer rs e \/ acceptable cs rs \/ (deadline < now (fst (p_final res)) + z)%Z) /\
      (forall a x y b, p_starts res = (a ++ x :: y :: b)%list ->
        exists rs e w' h' r, send m rs0 (snd x) (fst x) = Finished W E rs e w' h' [r] /\
          ~ no_answer rs e /\ ~ acceptable cs rs /\ (now w' + z <= deadline)%Z /\ y = (sleep z w', h')).
  Proof.
    cbn zeta. intros V B L Z S. destruct (calls_fold cs (MkPollRequest rs0 0 [] [])) as (Q1 & Q2 & Q3 & Q4). cbn zeta in *.
    set (q := fold_left call_poll cs (MkPollRequest rs0 0 [] [])) in *. cbn [pr_request pr_interval pr_statuses pr_predicates app] in *.
    rewrite (last_interval_fold cs z 0 L) in Q2.
    assert (V' : request_valid h (pr_request q)) by now rewrite Q1.
    destruct (polled_requests W E transport o incomplete show_float show_any spare v now sleep n (Some deadline) m q h w res V' B S) as (_ & F).
    unfold start_context in S. rewrite Q1, Q2, Q3, Q4 in S.
    destruct (poll_context_spec (W * heap) response (failure E) (task m rs0) (fun x => now (fst x)) (fun z x => (sleep z (fst x), snd x)) n deadline z
      (flat_map statuses_of cs) (flat_map predicates_of cs) (w, h) res Z S) as (l & x & P1 & P2 & P3 & P4 & P5 & P6 & P7 & P8).
    rewrite Q1 in F.
    assert (G : forall x, In x (p_starts res) -> exists rs e w' h' r, send m rs0 (snd x) (fst x) = Finished W E rs e w' h' [r]).
    { intros y I. rewrite Forall_forall in F. destruct (F y I) as (rs & e & w' & h' & r & ll & H & _). now exists rs, e, w', h', r. }
    destruct (G x) as (rs & e & w' & h' & r & H); [rewrite P1; apply in_or_app; right; now left|].
    exists l, x, rs, e. assert (T := task_is _ _ _ _ _ _ _ _ H). split; [exact P1|]. split; [exact P2|].
    assert (Fi : p_final res = (w', h')) by (rewrite P8; unfold after_attempt; now rewrite T).
    rewrite Fi. cbn [fst snd]. split; [now exists r|].
    split; [rewrite P6; unfold attempt_result; now rewrite T|].
    split; [rewrite P7; unfold attempt_error; now rewrite T|].
    split.
    - destruct P5 as [Br|[Ac|La]].
      + left. unfold broken, attempt_error, attempt_status in Br. rewrite T in Br. exact Br.
      + right. left. now apply (accepted_is _ _ _ _ _ _ _ _ cs H).
      + right. right. unfold late, after_attempt in La. rewrite T in La. exact La.
    - intros a y y' b Es. destruct (G y) as (rs1 & e1 & w1 & h1 & r1 & H1); [rewrite Es; apply in_or_app; right; now left|].
      exists rs1, e1, w1, h1, r1. split; [exact H1|]. assert (T1 := task_is _ _ _ _ _ _ _ _ H1).
      assert (Il : In y l).
      { rewrite P1 in Es. destruct (exists_last (l := y' :: b)) as (b' & y'' & Eb); [discriminate|].
        rewrite Eb in Es. replace (a ++ y :: b' ++ [y''])%list with ((a ++ y :: b') ++ [y''])%list in Es by (now rewrite <- app_assoc).
        apply app_inj_tail in Es. destruct Es as [-> _]. apply in_or_app. right. now left. }
      rewrite Forall_forall in P4. destruct (P4 y Il) as (N1 & N2 & N3).
      split; [|split; [|split]].
      + intros Na. apply N1. unfold broken, attempt_error, attempt_status. rewrite T1. exact Na.
      + intros Ac. apply N2. now apply (accepted_is _ _ _ _ _ _ _ _ cs H1).
      + unfold late, after_attempt in N3. rewrite T1 in N3. cbn [fst snd] in N3. lia.
      + rewrite Es in P3. clear -P3 T1. induction a as [|a0 a IH]; cbn [app] in P3.
        * cbn in P3. destruct P3 as [-> _]. unfold after_attempt. now rewrite T1.
        * destruct a as [|a1 a]; cbn [app] in *; destruct P3 as [_ P3]; apply IH; exact P3.
  Qed.
End Sending.

(** * Setters *)

Definition call_setters (r : request) (cs : list (parameter * value)) : request := fold_left (fun r c => set_parameter (fst c) (snd c) r) cs r.

Lemma setters_same cs : forall r, rq_path (call_setters r cs) = rq_path r /\ rq_query (call_setters r cs) = rq_query r /\ rq_header (call_setters r cs) = rq_header r.
Proof.
  induction cs as [|c cs IH]; intros r; [auto|]. cbn. destruct (IH (set_parameter (fst c) (snd c) r)) as (A & B & C). unfold call_setters in *.
  rewrite A, B, C. auto.
Qed.

Lemma setters_none cs : forall r n, ~ In n (map (fun c => client_field (fst c)) cs) -> mget n (rq_fields (call_setters r cs)) = mget n (rq_fields r).
Proof.
  induction cs as [|[p x] cs IH]; intros r n N; [reflexivity|]. cbn [call_setters fold_left fst snd]. cbn [map fst] in N.
  unfold call_setters in IH. rewrite IH; [|intros I; apply N; now right]. cbn. apply mget_mset_other. intros ->. apply N. now left.
Qed.

Lemma setters_hold r cs n x : holds (rq_fields r) n x (map (fun c => (client_field (fst c), snd c)) cs) -> mget n (rq_fields (call_setters r cs)) = x.
Proof.
  intros H. remember (map (fun c => (client_field (fst c), snd c)) cs) as l eqn:El. remember (rq_fields r) as fs eqn:Ef. destruct H as [fs n l N|fs n x a b N]; subst.
  - apply setters_none. now rewrite map_map in N.
  - symmetry in El. apply map_eq_app in El. destruct El as (c1 & c2 & -> & <- & E2). destruct c2 as [|[p y] c2]; [discriminate|]. cbn in E2.
    injection E2 as E3 E4 E5. unfold call_setters. rewrite fold_left_app. cbn [fold_left fst snd].
    fold (call_setters r c1). rewrite <- E5 in N. rewrite map_map in N. fold (call_setters (set_parameter p y (call_setters r c1)) c2).
    rewrite setters_none by exact N. cbn. rewrite <- E3, <- E4. apply mget_mset_same.
Qed.

(** * Getters *)

Lemma response_absent v p rs z : standard v -> zero_of v (p_type p) z -> snd (get_response_ok v p rs) = false ->
  get_response v p rs = z /\ fst (get_response_ok v p rs) = z.
Proof.
  intros St Zo.
  assert (G : exists t, mget (p_type p) (v_types v) = Some t /\ t_kind t <> UndefinedType /\ (is_scalar t = false -> z = VNil)).
  { destruct Zo as [t s G K I|t G K|t G K|t G K]; exists t; (split; [exact G|]); unfold is_scalar; (split; [|auto]);
      try (rewrite K; discriminate); try (intros U; rewrite U in K; cbn in K; intuition discriminate); rewrite K; discriminate. }
  destruct G as (t & G & K & N). destruct (zero_exists v (p_type p) t St G K) as [Z1 Z2].
  apply (zero_fun _ _ _ _ Zo) in Z1. apply (zero_fun _ _ _ _ Zo) in Z2.
  assert (A : (if scalar_in v p then zero_value v (p_type p) else VNil) = z).
  { unfold scalar_in, type_at. rewrite G. destruct (is_scalar t); auto. symmetry. auto. }
  unfold get_response, get_response_ok. destruct rs as [r|]; [destruct (field_at (rs_fields r) (client_field p)); try discriminate|]; cbn [fst snd]; auto.
Qed.

Lemma response_present v p rs :
  (snd (get_response_ok v p rs) = true <-> exists r x, rs = Some r /\ mget (client_field p) (rs_fields r) = Some x /\ x <> VNil) /\
  (forall r x, rs = Some r -> mget (client_field p) (rs_fields r) = Some x -> x <> VNil ->
    get_response v p rs = x /\ fst (get_response_ok v p rs) = x).
Proof.
  split; [split|].
  - destruct rs as [r|]; [|discriminate]. cbn. unfold field_at. destruct (mget (client_field p) (rs_fields r)) as [x|] eqn:M; [|discriminate].
    destruct x; try discriminate; intros _; exists r; eexists; repeat split; eauto; discriminate.
  - intros (r & x & -> & M & N). cbn. unfold field_at. rewrite M. destruct x; auto; contradiction.
  - intros r x -> M N. cbn. unfold field_at. rewrite M. destruct x; auto; contradiction.
Qed.

Lemma setters_spec r (cs : list (parameter * value)) :
  let q := fold_left (fun r c => set_parameter (fst c) (snd c) r) cs r in
  rq_path q = rq_path r /\ rq_query q = rq_query r /\ rq_header q = rq_header r /\
  forall n x, holds (rq_fields r) n x (map (fun c => (client_field (fst c), snd c)) cs) -> mget n (rq_fields q) = x.
Proof.
  cbn zeta. destruct (setters_same cs r) as (A & B & C). split; [exact A|]. split; [exact B|]. split; [exact C|]. intros n x. apply setters_hold.
Qed.
