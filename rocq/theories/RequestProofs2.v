(** Proofs about the memory and about what the requests send. *)
From Coq Require Import Ascii String Bool Arith ZArith NArith Lia Permutation List.
From Verif Require Import GoStrings GoStringsProofs GoMap GoMapProofs NamesModel ConceptsModel BindingModel ObjectsModel HelpersModel HelpersSpec
  HelpersProofs HelpersProofs4 ClientsModel JsonModel JsonTextModel ApiErrorModel RequestModel RequestSpec RequestProofs.
Import ListNotations.
Local Open Scope string_scope.

Lemma preserves_refl h : preserves h h.
Proof. repeat split; auto. Qed.

Lemma preserves_trans a b c : preserves a b -> preserves b c -> preserves a c.
Proof.
  intros (A1 & A2 & A3 & A4) (B1 & B2 & B3 & B4). split; [lia|]. split; [lia|]. split.
  - intros m L. rewrite B3 by lia. auto.
  - intros x L. rewrite B4 by lia. auto.
Qed.

Lemma preserves_valid h h' m : preserves h h' -> valid h m -> valid h' m.
Proof.
  intros (P1 & P2 & P3 & P4) (V1 & V2 & V3). split; [lia|]. rewrite P3 by auto. split; [auto|].
  rewrite Forall_forall in *. intros p I. apply (slice_valid_ext h); auto. intros a A. rewrite P4; [reflexivity|].
  exact (in_array_valid _ _ _ (V3 _ I) A).
Qed.

Lemma preserves_contents h h' m : preserves h h' -> valid h m -> contents h' m = contents h m.
Proof.
  intros (P1 & P2 & P3 & P4) (V1 & V2 & V3). unfold contents. rewrite P3 by auto. apply map_ext_in. intros p I. f_equal.
  apply observe_ext. intros a A. apply P4. rewrite Forall_forall in V3. exact (in_array_valid _ _ _ (V3 _ I) A).
Qed.

Lemma values_of_contents h m n :
  values_at h m n = match mget n (contents h m) with Some (Some l) => l | _ => [] end.
Proof.
  unfold values_at, lookup, contents. induction (map_at h m) as [|[k s] l IH]; [reflexivity|]. cbn.
  destruct (String.eqb n k); [|exact IH]. now destruct s.
Qed.

Lemma contents_values h h' m m' : contents h' m' = contents h m -> forall n, values_at h' m' n = values_at h m n.
Proof. intros E n. now rewrite !values_of_contents, E. Qed.

Lemma entries_of_contents h m : entries h (Some m) = map (fun p => (fst p, match snd p with Some l => l | None => [] end)) (contents h m).
Proof.
  unfold entries, contents. rewrite map_map. apply map_ext. intros [k s]. cbn. now destruct s.
Qed.

(** The map doesn't share anything with the memory that existed before. *)
Definition own (h0 h : heap) (c : nat) : Prop :=
  preserves h0 h /\ valid h c /\ separate h c /\ length (h_maps h0) <= c /\
  (forall p a, In p (map_at h c) -> in_array (snd p) a -> length (h_arrays h0) <= a).
Definition own_maybe (h0 h : heap) (q : option nat) : Prop := match q with Some c => own h0 h c | None => preserves h0 h end.

Lemma own_preserves h0 h q : own_maybe h0 h q -> preserves h0 h.
Proof. destruct q; [intros (P & _); exact P|auto]. Qed.

Lemma copying_own h h' r : copying h h' r -> own h h' r.
Proof.
  intros (C1 & C2 & C3 & C4 & C5 & C6 & C7 & C8). split; [split; [lia|split; [lia|split; auto]]|].
  split; [auto|]. split; [auto|]. split; [lia|auto].
Qed.

Lemma copy_query_own h q h' q' : (forall m, q = Some m -> valid h m) -> copy_query h q = (h', q') ->
  own_maybe h h' q' /\ forall n, values_in h' q' n = values_in h q n.
Proof.
  intros V E. destruct q as [m|].
  - unfold copy_query in E. cbn [new_map] in E. injection E as <- <-. destruct (copied h m (V m eq_refl)) as [A B].
    split; [exact (copying_own _ _ _ A)|]. exact (contents_values _ _ _ _ B).
  - injection E as <- <-. split; [apply preserves_refl|reflexivity].
Qed.

Lemma copy_header_own h q h' c : (forall m, q = Some m -> valid h m) -> copy_header h q = (h', c) ->
  own h h' c /\ contents h' c = match q with Some m => contents h m | None => [] end.
Proof.
  intros V E. unfold copy_header in E. cbn [new_map] in E. injection E as <- <-. destruct q as [m|].
  - destruct (copied h m (V m eq_refl)) as [A B]. split; [exact (copying_own _ _ _ A)|exact B].
  - split; [exact (copying_own _ _ _ (new_map_copying h))|]. unfold contents, map_at. cbn. rewrite app_nth2 by lia. now rewrite Nat.sub_diag.
Qed.

Lemma effect_own h0 h h' c : own h0 h c -> effect h h' c -> valid h' c -> separate h' c -> own h0 h' c.
Proof.
  intros ((P1 & P2 & P3 & P4) & V & Sp & L & F) (E1 & E2 & E3 & E4 & E5 & E6) V' S'.
  split; [|split; [auto|split; [auto|split; [auto|]]]].
  - split; [lia|]. split; [lia|]. split.
    + intros m B. rewrite E3 by lia. auto.
    + intros a B. rewrite E4; [auto|lia|]. intros p I A. specialize (F p a I A). lia.
  - intros p a I A. destruct (E6 p a I A) as [B|(q & Iq & _ & Aq)]; [lia|]. exact (F q a Iq Aq).
Qed.

Lemma new_map_own h0 h : preserves h0 h -> own h0 (fst (new_map h)) (snd (new_map h)).
Proof.
  intros P. destruct (copying_own _ _ _ (new_map_copying h)) as (A & B & C & D & F). cbn [new_map snd].
  assert (P' := P). destruct P' as (P1 & P2 & _). split; [exact (preserves_trans _ _ _ P A)|]. split; [auto|]. split; [auto|].
  split; [lia|]. intros p a I Ia. specialize (F p a I Ia). lia.
Qed.

Lemma add_value_own sf spare h0 h q name p h' q' : own_maybe h0 h q -> add_value sf spare h q name p = (h', q') ->
  own_maybe h0 h' q' /\ forall n, values_in h' q' n = (values_in h q n ++ if String.eqb n name then [param_text sf p] else [])%list.
Proof.
  intros O E. unfold add_value in E.
  assert (G : exists g m, match q with Some m => (h, m) | None => new_map h end = (g, m) /\ own h0 g m /\
    forall n, values_at g m n = values_in h q n).
  { destruct q as [m|]; [exists h, m; auto|]. exists (fst (new_map h)), (snd (new_map h)). split; [now destruct (new_map h)|].
    split; [now apply new_map_own|]. assert (N := new_map_empty h). destruct (new_map h) as [g m]. apply N. }
  destruct G as (g & m & Eg & Og & Vg). rewrite Eg in E. injection E as <- <-.
  destruct Og as (P & V & Sp & L & F). destruct (add_effect spare g m name (param_text sf p) V) as [Ef V'].
  destruct (added spare g m name (param_text sf p) V Sp) as [S' Va].
  split; [apply (effect_own h0 g); auto; exact (conj P (conj V (conj Sp (conj L F))))|]. intros n. cbn [values_in]. rewrite Va, <- Vg.
  destruct (String.eqb_spec n name) as [->|]; [reflexivity|now rewrite app_nil_r].
Qed.

Section Sending.
  Context (show_float : Z -> string) (show_any : any -> string) (spare : nat) (v : version).

  Notation texts := (parameter_texts show_float show_any v).

  Lemma text_of_scalar s : param_text show_float (param_of show_any s) = scalar_text show_float show_any s.
  Proof. now destruct s. Qed.

  Lemma add_parameters_own fs l : Forall (fun p => p_in p && scalar_in v p = true) l -> forall h0 h q h' q', own_maybe h0 h q ->
    add_parameters show_float show_any spare h q l fs = (h', q') ->
    own_maybe h0 h' q' /\ forall n, values_in h' q' n = (values_in h q n ++ texts fs n l)%list.
  Proof.
    intros F h0. induction F as [|p l Hp F IH]; intros h q h' q' O E.
    - injection E as <- <-. split; [auto|]. intros n. cbn. now rewrite app_nil_r.
    - cbn [add_parameters] in E. cbn [parameter_texts]. rewrite Hp. cbn [andb]. unfold field_at in E.
      assert (Skip : add_parameters show_float show_any spare h q l fs = (h', q') ->
        own_maybe h0 h' q' /\ forall n, values_in h' q' n = (values_in h q n ++ texts fs n l)%list) by (intros; eapply IH; eauto).
      assert (Skip' : add_parameters show_float show_any spare h q l fs = (h', q') ->
        (forall s, mget (client_field p) fs <> Some (VScalar s)) ->
        own_maybe h0 h' q' /\ forall n, values_in h' q' n = (values_in h q n ++
          (if String.eqb (query_parameter_name p) n
           then match mget (client_field p) fs with Some (VScalar s) => [scalar_text show_float show_any s] | _ => [] end else []) ++
          texts fs n l)%list).
      { intros E' N. destruct (Skip E') as [A B]. split; [exact A|]. intros n. rewrite B.
        destruct (mget (client_field p) fs) as [[]|]; try (now destruct (String.eqb _ _)); now contradiction (N s). }
      destruct (mget (client_field p) fs) as [[s| | | | |]|]; try (apply Skip'; [exact E|discriminate]).
      destruct (add_value _ _ _ _ _ _) as [g r] eqn:A. destruct (add_value_own _ _ _ _ _ _ _ _ _ O A) as [O' V'].
      destruct (IH _ _ _ _ O' E) as [A1 B1]. split; [exact A1|]. intros n. rewrite B1, V', <- app_assoc, text_of_scalar.
      now rewrite (String.eqb_sym n).
  Qed.

  Lemma texts_filter fs n l : texts fs n (filter (fun p => p_in p && scalar_in v p) l) = texts fs n l.
  Proof.
    induction l as [|p l IH]; [reflexivity|]. cbn [filter parameter_texts]. destruct (p_in p && scalar_in v p) eqn:E; [|exact IH].
    cbn [parameter_texts]. rewrite E, IH. reflexivity.
  Qed.

  Lemma query_texts fs n m : texts fs n (request_query_params v m) = if is_action m then [] else texts fs n (m_params m).
  Proof. unfold request_query_params. destruct (is_action m); [reflexivity|apply texts_filter]. Qed.

  (** The memory before the request is sent. *)
  Lemma prepared m r h h1 q1 h2 q2 h3 c : request_valid h r -> copy_query h (rq_query r) = (h1, q1) ->
    add_parameters show_float show_any spare h1 q1 (request_query_params v m) (rq_fields r) = (h2, q2) ->
    copy_header h2 (rq_header r) = (h3, c) ->
    preserves h h3 /\
    (exists l, parse_query (encode (entries h3 q2)) = Some l /\
      forall n, named n l = (values_in h (rq_query r) n ++ if is_action m then [] else texts (rq_fields r) n (m_params m))%list) /\
    entries h3 (Some c) = entries h (rq_header r).
  Proof.
    intros [Vq Vh] E1 E2 E3.
    destruct (copy_query_own _ _ _ _ Vq E1) as [O1 V1].
    destruct (add_parameters_own (rq_fields r) (request_query_params v m)) with (h0 := h) (h := h1) (q := q1) (h' := h2) (q' := q2) as [O2 V2]; auto.
    { unfold request_query_params. destruct (is_action m); [constructor|]. apply Forall_forall. intros p I. now apply filter_In in I. }
    assert (P2 := own_preserves _ _ _ O2).
    assert (Vh2 : forall k, rq_header r = Some k -> valid h2 k) by (intros; apply (preserves_valid h); auto).
    destruct (copy_header_own _ _ _ _ Vh2 E3) as [O3 C3]. destruct O3 as (P3 & _).
    split; [exact (preserves_trans _ _ _ P2 P3)|]. split.
    - assert (N : NoDup (map fst (entries h3 q2))).
      { destruct q2 as [k|]; [|constructor]. destruct O2 as (_ & V & _). destruct (preserves_valid _ _ _ P3 V) as (_ & D & _).
        unfold entries. rewrite map_map. exact D. }
      destruct (encode_parse _ N) as (l & El & Nl). exists l. split; [exact El|]. intros n. rewrite Nl, <- query_texts, <- V1, <- V2.
      destruct q2 as [k|]; [|reflexivity]. destruct O2 as (_ & V & _). cbn [values_in].
      rewrite <- (contents_values _ _ _ _ (preserves_contents _ _ _ P3 V)). exact (query_values h3 k n).
    - rewrite entries_of_contents, C3. destruct (rq_header r) as [k|] eqn:R; [|reflexivity].
      rewrite (preserves_contents h h2) by auto. now rewrite entries_of_contents.
  Qed.
End Sending.
