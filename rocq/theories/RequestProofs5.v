(** Proofs about sending requests. *)
From Coq Require Import Ascii String Bool Arith ZArith NArith Lia Permutation List.
From Verif Require Import GoStrings GoStringsProofs GoMap GoMapProofs NamesModel NamesProofs ConceptsModel BindingModel GoNamesModel ObjectsModel ObjectsSpec HelpersModel
  HelpersSpec HelpersProofs2 ClientsModel JsonModel JsonSpec JsonProofs JsonProofs4 JsonProofs6 JsonProofs8 JsonTextModel JsonTextSpec JsonTextProofs JsonTextProofs2 JsonTextProofs3 JsonLexModel JsonLexProofs
  ChecksSpec ChecksProofs ChecksProofs2 BindingSpec BindingProofs ApiErrorModel ApiErrorSpec ApiErrorProofs ApiErrorProofs2 RequestModel RequestSpec RequestProofs RequestProofs2
  RequestProofs3 RequestProofs4.
Import ListNotations.
Local Open Scope string_scope.

Lemma document_not_empty j : ~ json_document "" j.
Proof. intros D. apply lex_document in D. destruct (tokens_head j) as (t & r & E & _). rewrite E in D. discriminate. Qed.

Lemma document_nonempty b j : json_document b j -> String.eqb b "" = false.
Proof. intros D. apply String.eqb_neq. intros ->. exact (document_not_empty j D). Qed.

Section Sending.
  Context (W E : Type) (transport : W -> http_request -> reply E * W).
  Context (o : oracle) (incomplete : json -> any) (show_float : Z -> string) (show_any : any -> string) (spare : nat).
  Context (v : version).

  Notation send := (send_context W E transport o incomplete show_float show_any spare v).
  Notation receives := (receive E o incomplete v).
  Notation texts := (parameter_texts show_float show_any v).

  (** The request that is sent doesn't depend on anything else than the contents of the request. *)
  Definition sends (m : method) (r : request) (h : heap) (q : http_request) : Prop :=
    hr_method q = http_method m /\ hr_path q = rq_path r /\ hr_header q = entries h (rq_header r) /\
    (exists l, parse_query (hr_query q) = Some l /\
      forall n, named n l = (values_in h (rq_query r) n ++ if is_action m then [] else texts (rq_fields r) n (m_params m))%list) /\
    hr_body q =
      match request_body_params v m with
      | [] => None
      | _ => match write_request o v m (rq_fields r) with WOk l => Some (write_tokens 0 l) | _ => None end
      end.

  Lemma send_spec m r h w : request_valid h r ->
    (request_body_params v m <> [] /\
     ((write_request o v m (rq_fields r) = WPanic /\ send m r h w = Panicked W E) \/
      (write_request o v m (rq_fields r) = WErr /\
       exists h', send m r h w = Finished W E None (Some WriteError) w h' [] /\ preserves h h'))) \/
    ((request_body_params v m = [] \/ exists l, write_request o v m (rq_fields r) = WOk l) /\
     exists h' q, preserves h h' /\ sends m r h q /\
     send m r h w = match transport w q with
      | (TransportFails x, w') => Finished W E None (Some (TransportError x)) w' h' [q]
      | (Reply s hd b br, w') => Finished W E (fst (receives m s hd b br)) (snd (receives m s hd b br)) w' h' [q]
      end).
  Proof.
    intros V. unfold send_context.
    destruct (copy_query h (rq_query r)) as [h1 q1] eqn:E1.
    destruct (add_parameters show_float show_any spare h1 q1 (request_query_params v m) (rq_fields r)) as [h2 q2] eqn:E2.
    destruct (copy_header h2 (rq_header r)) as [h3 c] eqn:E3.
    destruct (prepared show_float show_any spare v m r h h1 q1 h2 q2 h3 c V E1 E2 E3) as (P & Q & Hd).
    assert (G : forall b, b = match request_body_params v m with
        | [] => None
        | _ => match write_request o v m (rq_fields r) with WOk l => Some (write_tokens 0 l) | _ => None end end ->
      exists h' q, preserves h h' /\ sends m r h q /\
      match transport w (MkHttpRequest (http_method m) (rq_path r) (encode (entries h3 q2)) (entries h3 (Some c)) b) with
      | (TransportFails e, w) => Finished W E None (Some (TransportError e)) w h3 [MkHttpRequest (http_method m) (rq_path r) (encode (entries h3 q2)) (entries h3 (Some c)) b]
      | (Reply status hd body broken, w) => let '(rs, e) := receives m status hd body broken in
          Finished W E rs e w h3 [MkHttpRequest (http_method m) (rq_path r) (encode (entries h3 q2)) (entries h3 (Some c)) b]
      end = match transport w q with
      | (TransportFails x, w') => Finished W E None (Some (TransportError x)) w' h' [q]
      | (Reply s hd b br, w') => Finished W E (fst (receives m s hd b br)) (snd (receives m s hd b br)) w' h' [q]
      end).
    { intros b Hb. exists h3, (MkHttpRequest (http_method m) (rq_path r) (encode (entries h3 q2)) (entries h3 (Some c)) b). split; [exact P|].
      split; [unfold sends; cbn [hr_method hr_path hr_query hr_header hr_body]; rewrite Hd; auto|].
      destruct (transport w _) as [[x|s hd bd br] w1]; [reflexivity|]. now destruct (receives m s hd bd br). }
    destruct (request_body_params v m) as [|p ps] eqn:B.
    - right. split; [now left|]. now apply G.
    - destruct (write_request o v m (rq_fields r)) as [l| |] eqn:Wr.
      + right. split; [right; eauto|]. now apply G.
      + left. split; [discriminate|]. right. split; [reflexivity|]. exists h3. auto.
      + left. split; [discriminate|]. left. auto.
  Qed.

  Lemma request_sent m r h w rs e w' h' sent : request_valid h r -> send m r h w = Finished W E rs e w' h' sent ->
    preserves h h' /\
    ((sent = [] /\ w' = w /\ rs = None /\ e = Some WriteError /\ request_body_params v m <> []) \/
     exists q l, sent = [q] /\ w' = snd (transport w q) /\ hr_method q = http_method m /\ hr_path q = rq_path r /\
       hr_header q = entries h (rq_header r) /\ parse_query (hr_query q) = Some l /\
       (forall n, named n l = (values_in h (rq_query r) n ++ if is_action m then [] else texts (rq_fields r) n (m_params m))%list) /\
       (hr_body q = None <-> request_body_params v m = [])).
  Proof.
    intros V F. destruct (send_spec m r h w V) as [(B & [(Wr & S)|(Wr & g & S & P)])|(B & g & q & P & Sn & S)]; rewrite S in F.
    - discriminate.
    - injection F as <- <- <- <- <-. split; [exact P|]. left. auto.
    - assert (G : w' = snd (transport w q) /\ h' = g /\ sent = [q]).
      { destruct (transport w q) as [[x|s hd b br] w1]; injection F as <- <- <- <- <-; auto. }
      destruct G as (Gw & -> & ->). split; [exact P|]. right. destruct Sn as (S1 & S2 & S3 & (l & S4 & S5) & S6). exists q, l.
      repeat split; auto.
      + intros N. rewrite S6 in N. destruct (request_body_params v m); [reflexivity|]. destruct B as [B|(x & B)]; [discriminate|].
        rewrite B in N. discriminate.
      + intros N. now rewrite S6, N.
  Qed.

  Lemma answered m r h w rs e w' h' q : request_valid h r -> send m r h w = Finished W E rs e w' h' [q] ->
    match fst (transport w q) with
    | TransportFails x => rs = None /\ e = Some (TransportError x)
    | Reply s hd b br => rs = fst (receives m s hd b br) /\ e = snd (receives m s hd b br)
    end.
  Proof.
    intros V F. destruct (send_spec m r h w V) as [(B & [(Wr & S)|(Wr & g & S & P)])|(B & g & q' & P & Sn & S)]; rewrite S in F; try discriminate.
    destruct (transport w q') as [[x|s hd b br] w1] eqn:T; injection F as <- <- <- <- <-; rewrite T; cbn [fst]; auto.
  Qed.

  Lemma outcome m r h w rs e w' h' q : request_valid h r -> send m r h w = Finished W E rs e w' h' [q] ->
    match fst (transport w q) with
    | TransportFails x => rs = None /\ e = Some (TransportError x)
    | Reply s hd b br =>
        exists p, rs = Some p /\ rs_status p = s /\ rs_header p = hd /\
        (b = "" -> br = None -> e = None /\ rs_error p = None /\ rs_fields p = []) /\
        (b <> "" \/ br <> None -> (400 <= s)%Z -> rs_fields p = [] /\
          ((exists a, e = Some (ApiError a) /\ rs_error p = Some a /\ get_status (Some a) = (s, true)) \/
           (e = Some DecodeError /\ rs_error p = None))) /\
        ((s < 400)%Z -> rs_error p = None /\
          (e = None \/ (e = Some DecodeError /\ rs_fields p = []) \/
           (exists x, e = Some (BodyError x) /\ br = Some x /\ b = "" /\ rs_fields p = [])))
    end.
  Proof.
    intros V F. assert (A := answered m r h w rs e w' h' q V F). destruct (fst (transport w q)) as [x|s hd b br]; [exact A|].
    destruct A as [-> ->]. unfold receive.
    destruct (String.eqb_spec b "") as [->|Nb].
    - destruct br as [x|]; cbn [andb].
      + destruct (Z.leb_spec 400 s).
        * destruct (unmarshal_error_status o incomplete (lex_text "") s) as [a rest| |] eqn:U; (eexists; split; [reflexivity|]); cbn [fst snd rs_status rs_header rs_error rs_fields];
            (repeat split; try discriminate; auto; try lia).
        * destruct (response_params m) as [|p0 ps].
          -- eexists; split; [reflexivity|]. cbn [fst snd rs_status rs_header rs_error rs_fields option_map]. repeat split; try discriminate; auto; try lia.
             right. right. eauto.
          -- destruct (read_response o v m (lex_text "")) as [fs rest| |]; (eexists; split; [reflexivity|]); cbn [fst snd rs_status rs_header rs_error rs_fields option_map];
             (repeat split; try discriminate; auto; try lia).
      + eexists; split; [reflexivity|]. cbn. repeat split; auto; try lia; match goal with H : _ \/ _ |- _ => destruct H; congruence end.
    - cbn [andb]. destruct (Z.leb_spec 400 s).
      + destruct (unmarshal_error_status o incomplete (lex_text b) s) as [a rest| |] eqn:U; (eexists; split; [reflexivity|]); cbn [fst snd rs_status rs_header rs_error rs_fields];
          (repeat split; try congruence; auto; try lia).
        left. exists a. repeat split. destruct (proj1 (status_overridden o incomplete _ _) _ _ U) as (e & _ & G & _). exact G.
      + destruct (response_params m) as [|p0 ps].
        * eexists; split; [reflexivity|]. cbn [fst snd rs_status rs_header rs_error rs_fields option_map]. repeat split; try congruence; auto; try lia.
        * destruct (read_response o v m (lex_text b)) as [fs rest| |]; (eexists; split; [reflexivity|]); cbn [fst snd rs_status rs_header rs_error rs_fields option_map];
             (repeat split; try congruence; auto; try lia).
  Qed.

  (** * Errors of the API *)

  Lemma api_error_received m r h w rs e w' h' q s hd e0 l br :
    faithful o -> error_typed e0 -> error_lossless e0 -> write_error o (Some e0) = WOk l -> (400 <= s)%Z ->
    request_valid h r -> send m r h w = Finished W E rs e w' h' [q] ->
    fst (transport w q) = Reply s hd (write_tokens 0 l) br ->
    exists a, e = Some (ApiError a) /\ response_error rs = Some a /\ response_status rs = s /\ response_header rs = hd /\
      get_status (Some a) = (s, true) /\ same_but_status e0 a.
  Proof.
    intros Fa T L Wr S V F Tr. assert (A := answered m r h w rs e w' h' q V F). rewrite Tr in A. destruct A as [-> ->].
    destruct (error_document o e0 l Fa T Wr) as (ms & -> & Wf & _).
    assert (D := lex_written (JObj ms) 0 Wf). unfold receive.
    assert (Nb : String.eqb (write_tokens 0 (tokens (JObj ms))) "" = false) by (exact (document_nonempty _ _ (document_text (JObj ms) 0 Wf))).
    rewrite Nb. cbn [andb]. replace (Z.leb 400 s) with true by (symmetry; now apply Z.leb_le). rewrite D.
    destruct (error_back o incomplete e0 _ Fa T L Wr) as (x & U & Sm).
    destruct (unmarshal_error_status o incomplete (tokens (JObj ms)) s) as [a rest| |] eqn:Us.
    - destruct (proj1 (status_overridden o incomplete _ _) _ _ Us) as (y & Uy & G & Sb). rewrite U in Uy. injection Uy as <- <-.
      exists a. cbn. repeat split; auto. all: unfold same_error, same_but_status in *; intuition congruence.
    - apply (proj2 (status_overridden o incomplete (tokens (JObj ms)) s)) in Us. congruence.
    - exfalso. unfold unmarshal_error_status in Us. rewrite U in Us. discriminate.
  Qed.

  (** * Decoded responses *)

  Lemma client_field_plain p : ~ In (go_private (p_name p)) ["err"; "status"] -> client_field p = go_private (p_name p).
  Proof.
    intros N. unfold client_field, avoid_builtin. destruct (existsb (String.eqb (go_private (p_name p))) builtin_fields) eqn:X; [|reflexivity].
    exfalso. apply existsb_exists in X as (y & I & Q). apply String.eqb_eq in Q. subst y. now apply N.
  Qed.

  Lemma same_not_nil k x y : same v k false x y -> x <> VNil -> y <> VNil.
  Proof.
    intros S N. unfold same in S. destruct x; destruct (mget k (v_types v)); try contradiction; try (now contradiction N).
    - congruence.
    - destruct S as (p & -> & _). discriminate.
    - destruct S as (p & -> & _). discriminate.
    - destruct S as (p & -> & _). discriminate.
    - destruct S as (p & -> & _). discriminate.
  Qed.

  Lemma got p r z : ~ In (go_private (p_name p)) ["err"; "status"] -> mget (go_private (p_name p)) (rs_fields r) = Some z -> z <> VNil ->
    get_response v p (Some r) = z /\ get_response_ok v p (Some r) = (z, true).
  Proof.
    intros N M Z. unfold get_response, get_response_ok, field_at. rewrite (client_field_plain p N), M. now destruct z.
  Qed.

  Lemma not_got p r : ~ In (go_private (p_name p)) ["err"; "status"] -> mget (go_private (p_name p)) (rs_fields r) = None ->
    snd (get_response_ok v p (Some r)) = false.
  Proof. intros N M. unfold get_response_ok, field_at. now rewrite (client_field_plain p N), M. Qed.


  Lemma receive_decoded m s hd b br j : (s < 400)%Z -> json_document b j -> response_params m <> [] ->
    receives m s hd b br = match read_response o v m (tokens j) with
      | Ok fs _ => (Some (MkResponse s hd None fs), None)
      | _ => (Some (MkResponse s hd None []), Some DecodeError)
      end.
  Proof.
    intros S D N. unfold receive. rewrite (document_nonempty _ _ D). cbn [andb]. replace (Z.leb 400 s) with false by (symmetry; now apply Z.leb_gt).
    destruct (response_params m); [contradiction|]. now rewrite (lex_document _ _ D).
  Qed.

  Context (St : standard v) (Co : compiles v) (Fa : faithful o).

  Lemma whole_received m r h w rs e w' h' q s hd b br p x j :
    response_whole m p -> In p (m_params m) -> p_out p = true -> ~ In (go_private (p_name p)) ["err"; "status"] ->
    request_valid h r -> send m r h w = Finished W E rs e w' h' [q] ->
    fst (transport w q) = Reply s hd b br -> (s < 400)%Z -> json_document b j -> represents o v (p_type p) x j ->
    e = None /\ response_status rs = s /\ response_header rs = hd /\ response_error rs = None /\
    exists y, get_response v p rs = y /\ get_response_ok v p rs = (y, true) /\ same v (p_type p) false x y.
  Proof.
    intros Wh I O B V F Tr S D R. assert (A := answered m r h w rs e w' h' q V F). rewrite Tr in A. destruct A as [-> ->].
    assert (N : response_params m <> []).
    { intros N. assert (X : In p (response_params m)) by (now apply filter_In). rewrite N in X. exact X. }
    rewrite (receive_decoded m s hd b br j S D N). destruct (whole_read o v St Co Fa m p x j Wh R) as (y & -> & Sm). cbn [fst snd].
    repeat split. exists y.
    assert (Y : y <> VNil) by (apply (same_not_nil _ _ _ Sm); now destruct R as (_ & Nx & _)).
    destruct (got p (MkResponse s hd None [(go_private (p_name p), y)]) y B) as [G1 G2]; auto. cbn. now rewrite String.eqb_refl.
  Qed.

  Lemma object_received m r h w rs e w' h' q s hd b br ms :
    response_object m -> separable m -> response_params m <> [] -> clean (JObj ms) -> NoDup (map fst ms) ->
    (forall p f j, response_parameter m p -> member_for m p f -> In (f, j) ms -> exists x, represents o v (p_type p) x j) ->
    request_valid h r -> send m r h w = Finished W E rs e w' h' [q] ->
    fst (transport w q) = Reply s hd b br -> (s < 400)%Z -> json_document b (JObj ms) ->
    e = None /\ response_status rs = s /\ response_header rs = hd /\ response_error rs = None /\
    forall p f, response_parameter m p -> member_for m p f -> ~ In (go_private (p_name p)) ["err"; "status"] ->
      (forall j x, In (f, j) ms -> represents o v (p_type p) x j ->
        exists y z, get_response v p rs = z /\ get_response_ok v p rs = (z, true) /\ same v (p_type p) false x y /\ received v m p y z) /\
      (~ In f (map fst ms) -> snd (get_response_ok v p rs) = false).
  Proof.
    intros Ro Se N Cl Nd Rep V F Tr S D. assert (A := answered m r h w rs e w' h' q V F). rewrite Tr in A. destruct A as [-> ->].
    rewrite (receive_decoded m s hd b br _ S D N). destruct (object_members o v m Se St Co Fa ms Ro N Cl Nd Rep) as (fs & -> & R1 & R2).
    cbn [fst snd]. repeat split.
    - intros j x I R. destruct (R1 p f j x H H0 I R) as (y & z & M & Sm & Rc). exists y, z.
      assert (Z : z <> VNil).
      { assert (Y : y <> VNil) by (apply (same_not_nil _ _ _ Sm); now destruct R as (_ & Nx & _)).
        destruct Rc as [Rc1 Rc2]. destruct (in_list m p) eqn:L.
        - assert (L' := proj1 (in_list_spec m p) L). intros ->.
          assert (Q : ~ scalar_items v p -> False) by (intros Q; assert (X := Rc1 (conj L' Q)); discriminate).
          apply Y. symmetry. apply Rc2. intros [_ X]. exact (Q X).
        - intros ->. apply Y. symmetry. apply Rc2. intros [X _]. apply in_list_spec in X. congruence. }
      destruct (got p (MkResponse s hd None fs) z H1 M Z) as [G1 G2]. auto.
    - intros Nf. apply not_got; auto. cbn. now apply (R2 p f).
  Qed.

  (** * Bodies of requests *)

  Lemma whole_sent m r h w p x : request_valid h r -> request_whole m p -> request_body_params v m <> [] ->
    mget (go_private (p_name p)) (rq_fields r) = Some x -> x <> VNil -> typed v (p_type p) false x -> printable o v (p_type p) x ->
    exists rs e w' h' q text j, send m r h w = Finished W E rs e w' h' [q] /\ hr_body q = Some text /\ json_document text j /\
      shows o v (p_type p) x j.
  Proof.
    intros V Wh B M N T Pr.
    destruct (proj2 (or_ind (fun H => False_ind _ (N H)) (fun H => H) (JsonProofs3.value_succeeds o v St (compiled_version v Co) (proj2 Fa) x (p_type p) false T)) Pr) as (l & Wl).
    assert (Wr : write_request o v m (rq_fields r) = WOk l).
    { rewrite (whole_written o v m p _ Wh). unfold field_at, json_field. now rewrite M. }
    destruct (value_document o v St Co Fa _ _ _ T N Wl) as (El & Wf & Sh & _).
    destruct (send_spec m r h w V) as [(_ & [(Wr' & _)|(Wr' & _)])|(_ & g & q & P & Sn & S)]; try congruence.
    destruct Sn as (_ & _ & _ & _ & Sb). rewrite Wr in Sb. destruct (request_body_params v m); [contradiction|].
    rewrite S. destruct (transport w q) as [[e|s hd b br] w1]; do 7 eexists; (split; [reflexivity|]); (split; [exact Sb|]);
      rewrite El; (split; [now apply document_text|exact Sh]).
  Qed.

  Lemma action_sent m r h w rs e w' h' q : request_valid h r -> action m -> request_body_params v m <> [] ->
    fields_typed v (rq_fields r) (request_body_params v m) -> send m r h w = Finished W E rs e w' h' [q] ->
    exists text ms, hr_body q = Some text /\ json_document text (JObj ms) /\ shows_parameters o v (rq_fields r) (filter p_in (m_params m)) ms.
  Proof.
    intros V A B T F.
    destruct (send_spec m r h w V) as [(_ & [(Wr' & S)|(Wr' & g & S & _)])|(Wr & g & q' & P & Sn & S)]; rewrite S in F; try discriminate.
    assert (q' = q) as -> by (destruct (transport w q') as [[x|s hd b br] w1]; congruence).
    destruct Wr as [Wr|(l & Wr)]; [contradiction|]. destruct (action_written o v St Co Fa m _ l A B T Wr) as (ms & -> & Wf & Sh).
    destruct Sn as (_ & _ & _ & _ & Sb). rewrite Wr in Sb. destruct (request_body_params v m) as [|p0 ps] eqn:Bp; [contradiction|].
    exists (write_tokens 0 (tokens (JObj ms))), ms. split; [exact Sb|]. split; [now apply document_text|]. rewrite <- Bp in Sh.
    unfold request_body_params in Sh. now rewrite (proj2 (is_action_spec m) A) in Sh.
  Qed.
End Sending.
