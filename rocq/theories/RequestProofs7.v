(** Proofs about what the server gets from the query of a request. *)
From Coq Require Import Ascii String Bool Arith ZArith NArith Lia Permutation List.
From Verif Require Import GoStrings GoStringsProofs GoMap GoMapProofs NamesModel ConceptsModel BindingModel GoTimeModel GoTimeSpec ObjectsModel HelpersModel HelpersSpec
  HelpersProofs2 HelpersProofs3 HelpersProofs4 GoTimeProofs ClientsModel JsonModel ApiErrorModel BindingSpec BindingProofs RequestModel RequestSpec RequestProofs RequestProofs5.
Import ListNotations.
Local Open Scope string_scope.

(** Characters that are allowed in the query of a URL. *)
Lemma escape_char_allowed c : str_all query_char (query_escape_char c) = true.
Proof. destruct c as [[] [] [] [] [] [] [] []]; reflexivity. Qed.

Lemma escape_allowed s : str_all query_char (query_escape s) = true.
Proof. induction s as [|c s IH]; [reflexivity|]. cbn [query_escape]. now rewrite str_all_app, escape_char_allowed, IH. Qed.

Lemma join_allowed l : Forall (fun s => str_all query_char s = true) l -> str_all query_char (str_join "&" l) = true.
Proof.
  intros F. induction F as [|x l H F IH]; [reflexivity|]. destruct l as [|y l]; [exact H|].
  change (str_join "&" (x :: y :: l)) with (x ++ "&" ++ str_join "&" (y :: l)). rewrite !str_all_app, H, IH. reflexivity.
Qed.

Lemma encode_allowed q : str_all query_char (encode q) = true.
Proof.
  unfold encode. apply join_allowed, Forall_forall. intros x I. apply in_flat_map in I as (n & _ & I). apply in_map_iff in I as (y & <- & _).
  unfold encode_pair. rewrite !str_all_app, !escape_allowed. reflexivity.
Qed.

Section Server.
  Context (W E : Type) (transport : W -> http_request -> reply E * W).
  Context (o : oracle) (incomplete : json -> any) (show_float : Z -> string) (show_any : any -> string) (spare : nat).
  Context (v : version).

  Lemma texts_single fs p s l : filter (fun p' => p_in p' && scalar_in v p' && String.eqb (query_parameter_name p') (query_parameter_name p)) l = [p] ->
    mget (client_field p) fs = Some (VScalar s) ->
    parameter_texts show_float show_any v fs (query_parameter_name p) l = [scalar_text show_float show_any s].
  Proof.
    intros F M.
    assert (N : forall l, filter (fun p' => p_in p' && scalar_in v p' && String.eqb (query_parameter_name p') (query_parameter_name p)) l = [] ->
      parameter_texts show_float show_any v fs (query_parameter_name p) l = []).
    { clear. induction l as [|q l IH]; [reflexivity|]. cbn. destruct (p_in q && scalar_in v q && _); [discriminate|exact IH]. }
    induction l as [|q l IH]; [discriminate|]. cbn in F |- *. destruct (p_in q && scalar_in v q && _).
    - injection F as -> F. rewrite M, (N l F). reflexivity.
    - exact (IH F).
  Qed.

  Lemma server_parses m r h w rs e w' h' q l sq p s pf : request_valid h r ->
    send_context W E transport o incomplete show_float show_any spare v m r h w = Finished W E rs e w' h' [q] -> ~ action m ->
    filter (fun p' => p_in p' && scalar_in v p' && String.eqb (query_parameter_name p') (query_parameter_name p)) (m_params m) = [p] ->
    values_in h (rq_query r) (query_parameter_name p) = [] -> mget (client_field p) (rq_fields r) = Some (VScalar s) ->
    parse_query (hr_query q) = Some l -> (forall n, values_of sq n = named n l) ->
    match s with
    | SString x => parse_string sq (query_parameter_name p) = Value x
    | SInt z => (int64_min <= z <= int64_max)%Z -> parse_integer sq (query_parameter_name p) = Value z
    | SBool b => parse_boolean sq (query_parameter_name p) = Value b
    | SFloat z => pf (show_float z) = Some z -> parse_float_parameter pf sq (query_parameter_name p) = Value z
    | SDate d => valid_date d -> (0 <= d_year (utc d) <= 9999)%Z ->
        exists e, parse_date sq (query_parameter_name p) = Value e /\ instant e = instant d /\ d_nano e = 0%Z /\ d_offset e = 0%Z
    | SAny a => parse_string sq (query_parameter_name p) = Value (show_any a)
    end.
  Proof.
    intros V F A Fl Ab M Pq Sv. destruct (request_sent _ _ _ _ _ _ _ _ _ m r h w rs e w' h' [q] V F) as [_ [(X & _)|(q' & l' & X & _ & _ & _ & _ & Pq' & Nm & _)]];
      [discriminate|]. injection X as <-. rewrite Pq in Pq'. injection Pq' as <-.
    assert (Vs : values_of sq (query_parameter_name p) = [scalar_text show_float show_any s]).
    { rewrite Sv, Nm, Ab. replace (is_action m) with false by (symmetry; apply not_true_iff_false; now rewrite is_action_spec).
      exact (texts_single _ p s _ Fl M). }
    destruct s as [b|z|z|x|d|a]; cbn [scalar_text] in Vs.
    - unfold parse_boolean. rewrite (single_parsed _ _ _ _ _ Vs). now destruct b.
    - intros R. unfold parse_integer. rewrite (single_parsed _ _ _ _ _ Vs). now rewrite parse_itoa.
    - intros R. unfold parse_float_parameter. rewrite (single_parsed _ _ _ _ _ Vs). now rewrite R.
    - unfold parse_string. now rewrite (single_parsed _ _ _ _ _ Vs).
    - intros Vd Y. destruct (date_sent d Vd Y) as (x & Ee & R). exists x. unfold parse_date. rewrite (single_parsed _ _ _ _ _ Vs). now rewrite Ee.
    - unfold parse_string. now rewrite (single_parsed _ _ _ _ _ Vs).
  Qed.
End Server.
