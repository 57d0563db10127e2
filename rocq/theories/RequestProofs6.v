(** Proofs about the requests of the metadata and about the polling requests. *)
From Coq Require Import Ascii String Bool Arith ZArith NArith Lia Permutation List.
From Verif Require Import GoStrings GoStringsProofs GoMap GoMapProofs NamesModel NamesProofs ConceptsModel BindingModel GoNamesModel ObjectsModel ObjectsSpec HelpersModel
  HelpersSpec HelpersProofs HelpersProofs4 ClientsModel JsonModel JsonSpec JsonProofs JsonProofs4 JsonProofs6 JsonProofs8 JsonTextModel JsonTextSpec JsonTextProofs JsonLexModel JsonLexProofs
  ApiErrorModel ApiErrorSpec ApiErrorProofs ApiErrorProofs2 RequestModel RequestSpec RequestProofs RequestProofs2 RequestProofs5.
Import ListNotations.
Local Open Scope string_scope.

Section Sending.
  Context (W E : Type) (transport : W -> http_request -> reply E * W).
  Context (o : oracle) (incomplete : json -> any) (show_float : Z -> string) (show_any : any -> string) (spare : nat).
  Context (v : version).

  Lemma metadata_sent r h w rs e w' h' sent :
    (forall m, mr_query r = Some m -> valid h m) -> (forall m, mr_header r = Some m -> valid h m) ->
    send_metadata W E transport o incomplete r h w = (rs, e, w', h', sent) ->
    preserves h h' /\ exists q l, sent = [q] /\ w' = snd (transport w q) /\ hr_method q = "GET" /\ hr_path q = mr_path r /\
      hr_header q = entries h (mr_header r) /\ hr_body q = None /\ parse_query (hr_query q) = Some l /\
      (forall n, named n l = values_in h (mr_query r) n) /\
      match fst (transport w q) with
      | TransportFails x => rs = None /\ e = Some (Other E (TransportError x))
      | Reply s hd b br =>
          exists p, rs = Some p /\ mp_status p = s /\ mp_header p = hd /\
          (b = "" -> br = None -> e = Some (EndOfFile E) /\ mp_error p = None /\ mp_body p = None) /\
          (b <> "" \/ br <> None -> (400 <= s)%Z -> mp_body p = None /\
            ((exists a, e = Some (Other E (ApiError a)) /\ mp_error p = Some a /\ get_status (Some a) = (s, true)) \/
             (e = Some (Other E DecodeError) /\ mp_error p = None))) /\
          (b <> "" \/ br <> None -> (s < 400)%Z -> mp_error p = None /\
            ((e = None /\ mp_body p <> None) \/ (e = Some (Other E DecodeError) /\ mp_body p = None))) /\
          (forall l, (s < 400)%Z -> json_document b (JObj l) -> ~ In "" (map fst l) -> NoDup (map fst l) ->
            match mget "server_version" l with
            | Some (JStr x) => e = None /\ mp_body p = Some (1%N, x)
            | Some JNull => e = None /\ mp_body p = Some (1%N, "")
            | Some _ => e = Some (Other E DecodeError)
            | None => e = None /\ mp_body p = Some (0%N, "")
            end)
      end.
  Proof.
    intros Vq Vh F. unfold send_metadata in F.
    destruct (copy_query h (mr_query r)) as [h1 q1] eqn:E1. destruct (copy_header h1 (mr_header r)) as [h2 c] eqn:E2.
    destruct (copy_query_own _ _ _ _ Vq E1) as [O1 V1]. assert (P1 := own_preserves _ _ _ O1).
    assert (Vh1 : forall k, mr_header r = Some k -> valid h1 k) by (intros; apply (preserves_valid h); auto).
    destruct (copy_header_own _ _ _ _ Vh1 E2) as [O2 C2]. destruct O2 as (P2 & _).
    assert (Hd : entries h2 (Some c) = entries h (mr_header r)).
    { rewrite entries_of_contents, C2. destruct (mr_header r) as [k|] eqn:R; [|reflexivity].
      rewrite (preserves_contents h h1) by auto. now rewrite entries_of_contents. }
    assert (Nd : NoDup (map fst (entries h2 q1))).
    { destruct q1 as [k|]; [|constructor]. destruct O1 as (_ & V & _). destruct (preserves_valid _ _ _ P2 V) as (_ & D & _).
      unfold entries. rewrite map_map. exact D. }
    destruct (encode_parse _ Nd) as (l & El & Nl).
    assert (Nm : forall n, named n l = values_in h (mr_query r) n).
    { intros n. rewrite Nl, <- V1. destruct q1 as [k|]; [|reflexivity]. destruct O1 as (_ & V & _). cbn [values_in].
      rewrite <- (contents_values _ _ _ _ (preserves_contents _ _ _ P2 V)). exact (query_values h2 k n). }
    set (q := MkHttpRequest "GET" (mr_path r) (encode (entries h2 q1)) (entries h2 (Some c)) None) in *.
    assert (G : sent = [q] /\ h' = h2 /\ w' = snd (transport w q)).
    { destruct (transport w q) as [[x|s hd b br] w1]; [injection F as <- <- <- <- <-; auto|].
      destruct (String.eqb b "" && match br with None => true | Some _ => false end); [injection F as <- <- <- <- <-; auto|].
      destruct (Z.leb 400 s).
      - destruct (unmarshal_error_status o incomplete (lex_text b) s); injection F as <- <- <- <- <-; auto.
      - destruct (unmarshal_metadata (lex_text b)); injection F as <- <- <- <- <-; auto. }
    destruct G as (-> & -> & ->). split; [exact (preserves_trans _ _ _ P1 P2)|]. exists q, l.
    repeat (split; [first [reflexivity|assumption]|]).
    destruct (transport w q) as [[x|s hd b br] w1]; cbn [fst]; [injection F as <- <-; auto|].
    destruct (String.eqb_spec b "") as [->|Nb].
    - destruct br as [x|]; cbn [andb] in F.
      + destruct (Z.leb_spec 400 s).
        * injection F as <- <-. eexists. split; [reflexivity|]. cbn. repeat split; auto; try discriminate; try lia.
        * injection F as <- <-. eexists. split; [reflexivity|]. cbn. repeat split; auto; try discriminate; try lia.
          intros l' L D. now apply document_not_empty in D.
      + injection F as <- <-. eexists. split; [reflexivity|]. cbn. repeat split; auto; try lia;
          try (match goal with H : _ \/ _ |- _ => destruct H; congruence end). intros l' L D. now apply document_not_empty in D.
    - cbn [andb] in F. destruct (Z.leb_spec 400 s).
      + destruct (unmarshal_error_status o incomplete (lex_text b) s) as [a rest| |] eqn:U; injection F as <- <-;
          (eexists; split; [reflexivity|]); cbn [mp_status mp_header mp_error mp_body]; (repeat split; try congruence; auto; try lia).
        left. exists a. repeat split. destruct (proj1 (status_overridden o incomplete _ _) _ _ U) as (e & _ & G & _). exact G.
      + destruct (unmarshal_metadata (lex_text b)) as [x rest| |] eqn:U; injection F as <- <-;
          (eexists; split; [reflexivity|]); cbn [mp_status mp_header mp_error mp_body]; (repeat split; try congruence; auto; try lia).
        * left. split; [reflexivity|discriminate].
        * intros l' L D N1 N2. rewrite (lex_document _ _ D), (metadata_spec l' N1 N2) in U.
          destruct (mget "server_version" l') as [[]|]; try discriminate; injection U as <- <-; auto.
        * intros l' L D N1 N2. rewrite (lex_document _ _ D), (metadata_spec l' N1 N2) in U.
          destruct (mget "server_version" l') as [[]|]; try discriminate; auto.
        * intros l' L D N1 N2. rewrite (lex_document _ _ D), (metadata_spec l' N1 N2) in U.
          destruct (mget "server_version" l') as [[]|]; try discriminate; auto.
  Qed.

  (** * Polling *)

  Lemma loop_invariant {S R X} (task : S -> Z * option R * option X * S) now sleep (I : S -> Prop) :
    (forall w, I w -> I (snd (task w))) -> (forall z w, I w -> I (sleep z w)) ->
    forall n deadline interval statuses predicates w r, I w -> poll_loop S R X task now sleep n deadline interval statuses predicates w = Some r ->
    Forall I (p_starts r) /\ I (p_final r).
  Proof.
    intros It Is. induction n as [|n IH]; intros deadline interval statuses predicates w r Iw P; [discriminate|]. cbn [poll_loop] in P.
    assert (Iw' := It w Iw). destruct (task w) as [[[status result] err] w1]. cbn [snd] in Iw'.
    assert (Done : forall x, Some (MkPolled S R X result (option_map inl err) [w] w1) = Some x -> Forall I (p_starts x) /\ I (p_final x)).
    { intros x E1. injection E1 as <-. cbn. auto. }
    destruct ((match err with Some _ => true | None => false end) && Z.eqb status 0); [auto|].
    destruct (eval_status statuses status && eval_predicates R predicates result); [auto|].
    destruct (Z.ltb deadline (now w1 + interval)); [auto|].
    destruct (poll_loop S R X task now sleep n deadline interval statuses predicates (sleep interval w1)) as [x|] eqn:L; [|discriminate].
    injection P as <-. destruct (IH _ _ _ _ _ _ (Is _ _ Iw') L) as [A B]. cbn. split; [constructor; auto|exact B].
  Qed.

  Notation send := (send_context W E transport o incomplete show_float show_any spare v).
  Notation texts := (parameter_texts show_float show_any v).

  Lemma polled_requests now sleep n deadline m r h w res : request_valid h (pr_request r) -> request_body_params v m = [] ->
    start_context W E transport o incomplete show_float show_any spare v now sleep n deadline m r h w = Some res ->
    preserves h (snd (p_final res)) /\
    Forall (fun x => exists rs e w' h' q l, send m (pr_request r) (snd x) (fst x) = Finished W E rs e w' h' [q] /\
      hr_method q = http_method m /\ hr_path q = rq_path (pr_request r) /\ hr_header q = entries h (rq_header (pr_request r)) /\
      hr_body q = None /\ parse_query (hr_query q) = Some l /\
      (forall n, named n l = (values_in h (rq_query (pr_request r)) n ++ if is_action m then [] else texts (rq_fields (pr_request r)) n (m_params m))%list))
      (p_starts res).
  Proof.
    intros V B P. set (I := fun x : W * heap => preserves h (snd x)).
    assert (Vp : forall x, I x -> request_valid (snd x) (pr_request r)).
    { intros x Ix. destruct V as [Vq Vh]. split; intros k Ek; apply (preserves_valid h); auto. }
    assert (G : forall x, I x -> exists rs e w' h' q l, send m (pr_request r) (snd x) (fst x) = Finished W E rs e w' h' [q] /\ preserves (snd x) h' /\
      hr_method q = http_method m /\ hr_path q = rq_path (pr_request r) /\ hr_header q = entries h (rq_header (pr_request r)) /\
      hr_body q = None /\ parse_query (hr_query q) = Some l /\
      (forall n, named n l = (values_in h (rq_query (pr_request r)) n ++ if is_action m then [] else texts (rq_fields (pr_request r)) n (m_params m))%list)).
    { intros x Ix. destruct (send_spec W E transport o incomplete show_float show_any spare v m (pr_request r) (snd x) (fst x) (Vp x Ix)) as [(N & _)|(_ & g & q & Pg & Sn & S')];
        [contradiction|].
      destruct Sn as (S1 & S2 & S3 & (l & S4 & S5) & S6). rewrite B in S6.
      assert (H1 : entries (snd x) (rq_header (pr_request r)) = entries h (rq_header (pr_request r))).
      { destruct (rq_header (pr_request r)) as [k|] eqn:R; [|reflexivity]. rewrite !entries_of_contents.
        rewrite (preserves_contents h (snd x)); auto. now apply (proj2 V). }
      assert (H2 : forall n, values_in (snd x) (rq_query (pr_request r)) n = values_in h (rq_query (pr_request r)) n).
      { intros k. destruct (rq_query (pr_request r)) as [a|] eqn:R; [|reflexivity]. cbn [values_in]. apply contents_values.
        apply preserves_contents; auto. now apply (proj1 V). }
      rewrite S'. destruct (transport (fst x) q) as [[y|s hd b br] w1]; do 6 eexists; (split; [reflexivity|]); (split; [exact Pg|]);
        repeat (split; [first [assumption|congruence|eassumption]|]); intros k; now rewrite <- H2. }
    assert (Ii : forall n d i s p, poll_loop (W * heap) response (failure E)
        (poll_task W E transport o incomplete show_float show_any spare v m (pr_request r)) (fun x => now (fst x)) (fun z x => (sleep z (fst x), snd x))
        n d i s p (w, h) = Some res -> Forall I (p_starts res) /\ I (p_final res)).
    { intros n' d i s p L. refine (loop_invariant _ _ _ I _ _ n' d i s p (w, h) res _ L).
      - intros x Ix. destruct (G x Ix) as (rs & e & w' & h' & q & l & F & Ph & _). unfold poll_task. rewrite F.
        destruct rs; cbn; exact (preserves_trans _ _ _ Ix Ph).
      - intros z x Ix. exact Ix.
      - apply preserves_refl. }
    unfold start_context, poll_context in P. destruct deadline as [d|]; [|injection P as <-; split; [apply preserves_refl|constructor]].
    destruct (Z.leb (pr_interval r) 0); [injection P as <-; split; [apply preserves_refl|constructor]|].
    destruct (Ii _ _ _ _ _ P) as [A F]. split; [exact F|]. eapply Forall_impl; [|exact A]. intros x Ix.
    destruct (G x Ix) as (rs & e & w' & h' & q & l & X). exists rs, e, w', h', q, l. tauto.
  Qed.
End Sending.
