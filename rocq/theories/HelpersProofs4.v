(** Proofs about the helper functions: values sent by the client and parsed by the server. *)
From Coq Require Import Ascii String Bool Arith ZArith NArith Lia List.
From Verif Require Import GoStrings GoStringsProofs GoMap GoMapProofs GoTimeModel GoTimeSpec GoTimeProofs HelpersModel HelpersSpec HelpersProofs
  HelpersProofs2 HelpersProofs3.
Import ListNotations.
Local Open Scope string_scope.

(** * Adding values *)

Definition old_values (h : heap) (q : option nat) (n : string) : list string :=
  match q with Some m => values_at h m n | None => [] end.

Lemma new_map_empty h : let '(h', m) := new_map h in valid h' m /\ separate h' m /\ forall n, values_at h' m n = [].
Proof.
  destruct (new_map h) as [h' m] eqn:E. injection E as <- <-. set (h' := MkHeap _ _).
  assert (M : map_at h' (length (h_maps h)) = []). { unfold map_at, h'. cbn. rewrite app_nth2 by lia. now rewrite Nat.sub_diag. }
  unfold valid, separate, values_at, lookup. rewrite M. split; [|split; [intros p q a []|reflexivity]].
  split; [unfold h'; cbn; rewrite app_length; cbn; lia|]. split; constructor.
Qed.

Lemma new_map_frame h n : n < length (h_maps h) -> contents (fst (new_map h)) n = contents h n.
Proof. intros L. unfold contents, map_at, new_map. cbn. rewrite app_nth1 by auto. apply map_ext. intros [k s]. now destruct s. Qed.

Lemma text_added spare h q name text h' m' :
  (forall m, q = Some m -> valid h m /\ separate h m) ->
  (let '(g, m) := match q with Some m => (h, m) | None => new_map h end in (values_add spare g m name text, Some m)) = (h', m') ->
  exists m, m' = Some m /\ (forall k, q = Some k -> m = k) /\ valid h' m /\ separate h' m /\
    forall n, values_at h' m n = (old_values h q n ++ if String.eqb n name then [text] else [])%list.
Proof.
  intros H E. destruct q as [m|].
  - injection E as <- <-. destruct (H m eq_refl) as [V S]. exists m. split; [auto|]. split; [congruence|].
    destruct (added spare h m name text V S) as [A B]. split; [now apply add_effect|]. split; [exact A|].
    intros n. rewrite B. cbn. destruct (String.eqb_spec n name) as [->|]; [reflexivity|now rewrite app_nil_r].
  - assert (N := new_map_empty h). destruct (new_map h) as [g m]. destruct N as (V & S & Z0). injection E as <- <-.
    exists m. split; [auto|]. split; [discriminate|]. destruct (added spare g m name text V S) as [A B]. split; [now apply add_effect|]. split; [exact A|].
    intros n. rewrite B. cbn. rewrite !Z0. now destruct (String.eqb n name).
Qed.

Lemma value_added sf spare h q name p h' m' :
  (forall m, q = Some m -> valid h m /\ separate h m) -> add_value sf spare h q name p = (h', m') ->
  exists m, m' = Some m /\ (forall k, q = Some k -> m = k) /\ valid h' m /\ separate h' m /\
    forall n, values_at h' m n = (old_values h q n ++ if String.eqb n name then [param_text sf p] else [])%list.
Proof. exact (text_added spare h q name (param_text sf p) h' m'). Qed.

Lemma header_added spare h q name text h' m' :
  (forall m, q = Some m -> valid h m /\ separate h m) -> add_header spare h q name text = (h', m') ->
  exists m, m' = Some m /\ (forall k, q = Some k -> m = k) /\ valid h' m /\ separate h' m /\
    forall n, values_at h' m n = (old_values h q n ++ if String.eqb n (canonical_key name) then [text] else [])%list.
Proof. exact (text_added spare h q (canonical_key name) text h' m'). Qed.

(** * Sending and parsing *)

Lemma query_values h m n : values_of (query_of h m) n = values_at h m n.
Proof.
  unfold values_of, query_of, values_at, lookup. induction (map_at h m) as [|[k s] l IH]; [reflexivity|]. cbn.
  destruct (String.eqb n k); [reflexivity|exact IH].
Qed.

Definition whole_seconds (d : date) : date :=
  MkDate (d_year d) (d_month d) (d_day d) (d_hour d) (d_minute d) (d_second d) 0 (d_offset d).

Lemma date_sent d : valid_date d -> (0 <= d_year (utc d) <= 9999)%Z ->
  exists e, parse_rfc3339 (format_rfc3339 (utc d)) = Some e /\ instant e = instant d /\ d_nano e = 0%Z /\ d_offset e = 0%Z.
Proof.
  intros V Y. destruct (utc_instant d V) as (I & V' & O). generalize dependent (utc d). intros u. generalize (instant d). intros z Y I V' O.
  exists (whole_seconds u). split; [|split; [now destruct u|split; [reflexivity|exact O]]].
  change (format_rfc3339 u) with (format_rfc3339 (whole_seconds u)). apply parse_format.
  destruct u as [y mo da ho mi se na off]. unfold plain_date, whole_seconds, valid_date in *.
  cbn [d_year d_month d_day d_hour d_minute d_second d_nano d_offset] in *. subst off.
  repeat (split; [lia|]). exists 0%Z. lia.
Qed.

Lemma single_parsed {A} (parse : string -> option A) article q name s : values_of q name = [s] -> parse_parameter parse article q name =
  match parse s with
  | Some x => Value x
  | None => Invalid ("value '" ++ s ++ "' isn't valid for the '" ++ name ++ "' parameter because it isn't " ++ article)
  end.
Proof. intros E. rewrite parameter_spec, E. reflexivity. Qed.

Lemma sent_parsed sf pf spare h q name p h' m :
  (forall k, q = Some k -> valid h k /\ separate h k /\ values_at h k name = []) -> add_value sf spare h q name p = (h', Some m) ->
  match p with
  | PString s => parse_string (query_of h' m) name = Value s
  | PInt z => (int64_min <= z <= int64_max)%Z -> parse_integer (query_of h' m) name = Value z
  | PBool b => parse_boolean (query_of h' m) name = Value b
  | PFloat z => pf (sf z) = Some z -> parse_float_parameter pf (query_of h' m) name = Value z
  | PDate d => valid_date d -> (0 <= d_year (utc d) <= 9999)%Z ->
      exists e, parse_date (query_of h' m) name = Value e /\ instant e = instant d /\ d_nano e = 0%Z /\ d_offset e = 0%Z
  end.
Proof.
  intros H E. destruct (value_added sf spare h q name p h' (Some m)) as (m0 & E0 & _ & _ & _ & A).
  { intros k Ek. destruct (H k Ek) as (V & S & _). auto. }
  { exact E. }
  injection E0 as <-. assert (V : values_of (query_of h' m) name = [param_text sf p]).
  { rewrite query_values, A, String.eqb_refl. destruct q as [k|]; [|reflexivity]. cbn. destruct (H k eq_refl) as (_ & _ & ->). reflexivity. }
  destruct p as [b|z|z|s|d]; cbn [param_text] in V.
  - unfold parse_boolean. rewrite (single_parsed _ _ _ _ _ V). now destruct b.
  - intros R. unfold parse_integer. rewrite (single_parsed _ _ _ _ _ V). now rewrite parse_itoa.
  - intros R. unfold parse_float_parameter. rewrite (single_parsed _ _ _ _ _ V). now rewrite R.
  - unfold parse_string. now rewrite (single_parsed _ _ _ _ _ V).
  - intros Vd Y. destruct (date_sent d Vd Y) as (e & Ee & R). exists e. unfold parse_date. rewrite (single_parsed _ _ _ _ _ V). now rewrite Ee.
Qed.

(** * Parsing *)

Lemma booleans_parsed s b : parse_bool s = Some b <->
  In s (if b then ["1"; "t"; "T"; "TRUE"; "true"; "True"] else ["0"; "f"; "F"; "FALSE"; "false"; "False"]).
Proof.
  split.
  - unfold parse_bool. destruct (existsb (String.eqb s) ["1"; "t"; "T"; "true"; "TRUE"; "True"]) eqn:E1.
    + intros H. injection H as <-. apply existsb_exists in E1. destruct E1 as (x & I & X). apply String.eqb_eq in X. subst x. cbn in *. tauto.
    + destruct (existsb (String.eqb s) ["0"; "f"; "F"; "false"; "FALSE"; "False"]) eqn:E2; [|discriminate].
      intros H. injection H as <-. apply existsb_exists in E2. destruct E2 as (x & I & X). apply String.eqb_eq in X. subst x. cbn in *. tauto.
  - destruct b; cbn; intuition (subst; reflexivity).
Qed.

Lemma integer_parameter q name z : parse_integer q name = Value z <->
  exists s, values_of q name = [s] /\ signed_decimal s z /\ (int64_min <= z <= int64_max)%Z.
Proof.
  unfold parse_integer. rewrite (proj1 (proj2 (parameter_cases parse_int "an integer" q name))). split; intros (s & E & H); exists s; (split; [exact E|]); now apply integers_parsed.
Qed.

Lemma string_parameter q name s : parse_string q name = Value s <-> values_of q name = [s].
Proof.
  unfold parse_string. rewrite (proj1 (proj2 (parameter_cases Some "a string" q name))). split; [intros (x & E & H); congruence|eauto].
Qed.

Lemma boolean_parameter q name b : parse_boolean q name = Value b <->
  exists s, values_of q name = [s] /\ In s (if b then ["1"; "t"; "T"; "TRUE"; "true"; "True"] else ["0"; "f"; "F"; "FALSE"; "false"; "False"]).
Proof.
  unfold parse_boolean. rewrite (proj1 (proj2 (parameter_cases parse_bool "a boolean" q name))). split; intros (s & E & H); exists s; (split; [exact E|]); now apply booleans_parsed.
Qed.

Lemma date_parameter q name d : parse_date q name = Value d ->
  exists s, values_of q name = [s] /\ valid_date d /\ (0 <= d_year d <= 9999)%Z.
Proof.
  unfold parse_date. rewrite (proj1 (proj2 (parameter_cases parse_rfc3339 "a date" q name))). intros (s & E & H). exists s. split; [exact E|]. now apply (parsed_date_valid s).
Qed.

Lemma plain_date_parameter q name d : plain_date d -> values_of q name = [format_rfc3339 d] -> parse_date q name = Value d.
Proof. intros P E. unfold parse_date. rewrite (single_parsed _ _ _ _ _ E). now rewrite parse_format. Qed.

(** All the functions. *)
Lemma missing_parameters pf q name :
  (parse_integer q name = Missing <-> values_of q name = []) /\ (parse_float_parameter pf q name = Missing <-> values_of q name = []) /\
  (parse_string q name = Missing <-> values_of q name = []) /\ (parse_boolean q name = Missing <-> values_of q name = []) /\
  (parse_date q name = Missing <-> values_of q name = []).
Proof.
  unfold parse_integer, parse_float_parameter, parse_string, parse_boolean, parse_date. repeat split; apply parameter_cases.
Qed.

Lemma repeated_parameters pf q name : 1 < length (values_of q name) ->
  (exists m, parse_integer q name = Invalid m) /\ (exists m, parse_float_parameter pf q name = Invalid m) /\
  (exists m, parse_string q name = Invalid m) /\ (exists m, parse_boolean q name = Invalid m) /\ (exists m, parse_date q name = Invalid m).
Proof.
  intros H. unfold parse_integer, parse_float_parameter, parse_string, parse_boolean, parse_date. repeat split; apply parameter_cases; auto.
Qed.

Lemma float_parameter pf q name z : parse_float_parameter pf q name = Value z <-> exists s, values_of q name = [s] /\ pf s = Some z.
Proof. apply parameter_cases. Qed.

(** * Polling *)

Section Polling.
  Context (W R E : Type) (task : W -> Z * option R * option E * W) (now : W -> Z) (sleep : Z -> W -> W).

  (** The attempts after the first one start before the deadline if sleeping isn't longer than asked. *)
  Lemma starts_in_time deadline interval : (forall w, now (sleep interval w) <= now w + interval)%Z ->
    forall l last, chained W R E task sleep interval (l ++ [last]) ->
    Forall (fun w => ~ late W R E task now deadline interval w) l -> Forall (fun w => now w <= deadline)%Z (tl (l ++ [last])).
  Proof.
    intros Hs. induction l as [|w l IH]; intros last C F; [constructor|]. cbn [app tl]. inversion F as [|? ? L F']; subst.
    assert (C' : chained W R E task sleep interval (l ++ [last])) by (destruct l; cbn in C |- *; tauto).
    specialize (IH last C' F'). assert (Hd : forall x r, (l ++ [last])%list = x :: r -> (now x <= deadline)%Z).
    { intros x r Er. change (chained W R E task sleep interval (w :: (l ++ [last])%list)) in C. rewrite Er in C. destruct C as [-> _].
      specialize (Hs (after_attempt W R E task w)). unfold late in L. lia. }
    destruct (l ++ [last])%list as [|x r]; [constructor|]. constructor; [now apply (Hd x r)|exact IH].
  Qed.

  Lemma poll_in_time n deadline interval statuses predicates w r : (0 < interval)%Z -> (forall w, now (sleep interval w) <= now w + interval)%Z ->
    poll_context W R E task now sleep n (Some deadline) interval statuses predicates w = Some r ->
    Forall (fun w => now w <= deadline)%Z (tl (p_starts r)).
  Proof.
    intros I Hs H. destruct (poll_context_spec W R E task now sleep n deadline interval statuses predicates w r I H) as (l & last & E1 & _ & C & F & _).
    rewrite E1 in *. apply (starts_in_time deadline interval Hs l last C). eapply Forall_impl; [|exact F]. intros x (_ & _ & L). exact L.
  Qed.
End Polling.
