(** Property theorems about the helper functions (C38 and C41 to C43). *)
From Coq Require Import Ascii String Bool Arith ZArith NArith Lia List.
From Verif Require Import GoStrings GoMap GoTimeModel GoTimeSpec HelpersModel HelpersSpec HelpersProofs HelpersProofs2 HelpersProofs3 HelpersProofs4
  HelpersExamples.
Import ListNotations.
Local Open Scope string_scope.

(** C38 *)
Theorem C38_missing_parameters : forall pf q name,
  (parse_integer q name = Missing <-> values_of q name = []) /\ (parse_float_parameter pf q name = Missing <-> values_of q name = []) /\
  (parse_string q name = Missing <-> values_of q name = []) /\ (parse_boolean q name = Missing <-> values_of q name = []) /\
  (parse_date q name = Missing <-> values_of q name = []).
Proof. exact missing_parameters. Qed.
Print Assumptions C38_missing_parameters.

Theorem C38_repeated_parameters : forall pf q name, 1 < length (values_of q name) ->
  (exists m, parse_integer q name = Invalid m) /\ (exists m, parse_float_parameter pf q name = Invalid m) /\
  (exists m, parse_string q name = Invalid m) /\ (exists m, parse_boolean q name = Invalid m) /\ (exists m, parse_date q name = Invalid m).
Proof. exact repeated_parameters. Qed.
Print Assumptions C38_repeated_parameters.

(** The accepted integers are the decimal numbers with optional sign that have 64 bits. *)
Theorem C38_integers : forall q name z, parse_integer q name = Value z <->
  exists s, values_of q name = [s] /\ signed_decimal s z /\ (int64_min <= z <= int64_max)%Z.
Proof. exact integer_parameter. Qed.
Print Assumptions C38_integers.

Theorem C38_floats : forall pf q name z, parse_float_parameter pf q name = Value z <-> exists s, values_of q name = [s] /\ pf s = Some z.
Proof. exact float_parameter. Qed.
Print Assumptions C38_floats.

Theorem C38_strings : forall q name s, parse_string q name = Value s <-> values_of q name = [s].
Proof. exact string_parameter. Qed.
Print Assumptions C38_strings.

Theorem C38_booleans : forall q name b, parse_boolean q name = Value b <->
  exists s, values_of q name = [s] /\ In s (if b then ["1"; "t"; "T"; "TRUE"; "true"; "True"] else ["0"; "f"; "F"; "FALSE"; "false"; "False"]).
Proof. exact boolean_parameter. Qed.
Print Assumptions C38_booleans.

Theorem C38_dates : forall q name d, parse_date q name = Value d ->
  exists s, values_of q name = [s] /\ valid_date d /\ (0 <= d_year d <= 9999)%Z.
Proof. exact date_parameter. Qed.
Print Assumptions C38_dates.

Theorem C38_formatted_dates : forall q name d, plain_date d -> values_of q name = [format_rfc3339 d] -> parse_date q name = Value d.
Proof. exact plain_date_parameter. Qed.
Print Assumptions C38_formatted_dates.

(** What the client sends with [AddValue] is what the server parses; dates lose the fraction of second and
    the time zone, but they are the same instant. *)
Theorem C38_sent_values_are_parsed : forall sf pf spare h q name p h' m,
  (forall k, q = Some k -> valid h k /\ separate h k /\ values_at h k name = []) -> add_value sf spare h q name p = (h', Some m) ->
  match p with
  | PString s => parse_string (query_of h' m) name = Value s
  | PInt z => (int64_min <= z <= int64_max)%Z -> parse_integer (query_of h' m) name = Value z
  | PBool b => parse_boolean (query_of h' m) name = Value b
  | PFloat z => pf (sf z) = Some z -> parse_float_parameter pf (query_of h' m) name = Value z
  | PDate d => valid_date d -> (0 <= d_year (utc d) <= 9999)%Z ->
      exists e, parse_date (query_of h' m) name = Value e /\ instant e = instant d /\ d_nano e = 0%Z /\ d_offset e = 0%Z
  end.
Proof. exact sent_parsed. Qed.
Print Assumptions C38_sent_values_are_parsed.

Example C38_query : parse_integer ex_query "page" = Value 2%Z /\ parse_integer ex_query "size" = Value (-7)%Z /\
  parse_integer ex_query "search" = Missing /\ 1 < length (values_of ex_query "order") /\ parse_boolean ex_query "all" = Value true /\
  (exists m, parse_integer ex_query "bad" = Invalid m) /\ parse_date ex_query "at" = Value (MkDate 2020 2 29 12 30 0 0 3600).
Proof.
  do 3 (split; [vm_compute; reflexivity|]). split; [vm_compute; constructor|]. split; [vm_compute; reflexivity|].
  split; [eexists; vm_compute; reflexivity|vm_compute; reflexivity].
Qed.
Example C38_sent : valid ex_heap 0 /\ separate ex_heap 0 /\ values_at ex_heap 0 "page" = [] /\ valid_date ex_date /\
  (let '(h, q) := add_value (fun _ => "") 1 ex_heap (Some 0) "page" (PDate ex_date) in
   q = Some 0 /\ values_at h 0 "page" = ["2020-01-01T00:30:05Z"]).
Proof. split; [exact ex_valid0|]. split; [exact ex_separate0|]. split; [reflexivity|]. split; [exact ex_date_valid|]. vm_compute. split; reflexivity. Qed.

(** C41 *)
Theorem C41_polling_stops_when_it_should : forall W R E (task : W -> Z * option R * option E * W) now sleep n deadline interval statuses predicates w r,
  (0 < interval)%Z ->
  poll_context W R E task now sleep n (Some deadline) interval statuses predicates w = Some r ->
  exists l last, p_starts r = (l ++ [last])%list /\ hd_error (p_starts r) = Some w /\ chained W R E task sleep interval (p_starts r) /\
    Forall (fun w => ~ broken W R E task w /\ ~ accepted W R E task statuses predicates w /\ ~ late W R E task now deadline interval w) l /\
    (broken W R E task last \/ accepted W R E task statuses predicates last \/ late W R E task now deadline interval last) /\
    p_result r = attempt_result W R E task last /\ p_error r = option_map inl (attempt_error W R E task last) /\
    p_final r = after_attempt W R E task last.
Proof. exact poll_context_spec. Qed.
Print Assumptions C41_polling_stops_when_it_should.

Theorem C41_attempts_start_before_the_deadline :
  forall W R E (task : W -> Z * option R * option E * W) now sleep n deadline interval statuses predicates w r,
  (0 < interval)%Z -> (forall w, now (sleep interval w) <= now w + interval)%Z ->
  poll_context W R E task now sleep n (Some deadline) interval statuses predicates w = Some r ->
  Forall (fun w => now w <= deadline)%Z (tl (p_starts r)).
Proof. exact poll_in_time. Qed.
Print Assumptions C41_attempts_start_before_the_deadline.

(** It terminates, and the number of attempts is bounded, if the clock doesn't go back. *)
Theorem C41_polling_terminates : forall W R E (task : W -> Z * option R * option E * W) now sleep deadline interval statuses predicates w,
  (0 < interval)%Z -> (forall w, now w <= now (after_attempt W R E task w))%Z -> (forall w, now w + interval <= now (sleep interval w))%Z ->
  exists n r, (forall m, n <= m -> poll_context W R E task now sleep m (Some deadline) interval statuses predicates w = Some r) /\
    (Z.of_nat (length (p_starts r)) <= Z.max 0 ((deadline - now w) / interval) + 2)%Z.
Proof. exact poll_context_ends. Qed.
Print Assumptions C41_polling_terminates.

Theorem C41_wrong_arguments_are_rejected : forall W R E (task : W -> Z * option R * option E * W) now sleep n deadline interval statuses predicates w,
  deadline = None \/ (interval <= 0)%Z ->
  exists m, poll_context W R E task now sleep n deadline interval statuses predicates w = Some (MkPolled W R E None (Some (inr m)) [] w).
Proof. exact poll_context_rejected. Qed.
Print Assumptions C41_wrong_arguments_are_rejected.

(** A successful return doesn't mean that the result was accepted: when there is no time left the result of
    the last attempt is returned without error. *)
Theorem C41_accepted_on_success_refuted : exists (task : Z -> Z * option Z * option string * Z) now sleep n deadline interval predicates w r,
  (0 < interval)%Z /\ poll_context Z Z string task now sleep n (Some deadline) interval [] predicates w = Some r /\
  p_error r = None /\ p_result r <> None /\ (forall x, ~ accepted Z Z string task [] predicates x).
Proof.
  exists ex_starting, ex_clock, ex_sleep, 5, 7%Z, 3%Z, [fun _ => false], 0%Z, (MkPolled Z Z string (Some 4%Z) None [0; 4]%Z 5%Z).
  split; [reflexivity|]. split; [vm_compute; reflexivity|]. split; [reflexivity|]. split; [discriminate|].
  intros x [_ [H|(r & _ & H)]]; [discriminate|]. specialize (H _ (or_introl eq_refl)). discriminate.
Qed.
Print Assumptions C41_accepted_on_success_refuted.

Example C41_accepted : (forall w, ex_clock w <= ex_clock (after_attempt Z Z string (ex_task 9) w))%Z /\
  (forall w, ex_clock w + 3 <= ex_clock (ex_sleep 3 w))%Z /\ (forall w, ex_clock (ex_sleep 3 w) <= ex_clock w + 3)%Z /\
  poll_context Z Z string (ex_task 9) ex_clock ex_sleep 10 (Some 100%Z) 3 [] [] 0%Z =
    Some (MkPolled Z Z string (Some 12%Z) None [0; 4; 8; 12]%Z 13%Z).
Proof.
  unfold ex_clock, ex_sleep, after_attempt, ex_task. split; [intros w; destruct (Z.leb 9 w); cbn; lia|]. split; [intros; lia|].
  split; [intros; lia|]. vm_compute. reflexivity.
Qed.
Example C41_late : poll_context Z Z string (ex_task 90) ex_clock ex_sleep 10 (Some 10%Z) 3 [200; 201]%Z [] 0%Z =
  Some (MkPolled Z Z string None (Some (inl "not found")) [0; 4; 8]%Z 9%Z).
Proof. vm_compute. reflexivity. Qed.

(** C42 *)
Theorem C42_queries_are_copied : forall h m h' r, valid h m -> copy_query h (Some m) = (h', r) ->
  exists c, r = Some c /\ c <> m /\ valid h' c /\ separate h' c /\ contents h' c = contents h m /\ contents h' m = contents h m /\
    (forall l, contents (run h' c l) m = contents h m) /\ (forall l, contents (run h' m l) c = contents h m).
Proof. exact query_copied. Qed.
Print Assumptions C42_queries_are_copied.

Theorem C42_headers_are_copied : forall h q h' c, (forall m, q = Some m -> valid h m) -> copy_header h q = (h', c) ->
  valid h' c /\ separate h' c /\ contents h' c = match q with Some m => contents h m | None => [] end /\
  (forall m, q = Some m -> c <> m /\ contents h' m = contents h m /\
    (forall l, contents (run h' c l) m = contents h m) /\ (forall l, contents (run h' m l) c = contents h m)).
Proof. exact header_copied. Qed.
Print Assumptions C42_headers_are_copied.

Theorem C42_values_are_copied : forall h s h' s', copy_values h s = (h', s') -> slice_valid h s ->
  h_maps h' = h_maps h /\ length (h_arrays h) <= length (h_arrays h') /\
  (forall a, a < length (h_arrays h) -> array_at h' a = array_at h a) /\
  (forall a, in_array s' a -> a = length (h_arrays h)) /\ (forall a, in_array s' a -> length (h_arrays h') = length (h_arrays h) + 1) /\
  slice_valid h' s' /\ observe h' s' = observe h s.
Proof. exact copy_values_spec. Qed.
Print Assumptions C42_values_are_copied.

Theorem C42_nil_queries : forall h, copy_query h None = (h, None).
Proof. exact (fun h => eq_refl). Qed.
Print Assumptions C42_nil_queries.

Theorem C42_values_are_added : forall sf spare h q name p h' m',
  (forall m, q = Some m -> valid h m /\ separate h m) -> add_value sf spare h q name p = (h', m') ->
  exists m, m' = Some m /\ (forall k, q = Some k -> m = k) /\ valid h' m /\ separate h' m /\
    forall n, values_at h' m n =
      (match q with Some k => values_at h k n | None => [] end ++ if String.eqb n name then [param_text sf p] else [])%list.
Proof. exact value_added. Qed.
Print Assumptions C42_values_are_added.

Theorem C42_headers_are_added : forall spare h q name text h' m',
  (forall m, q = Some m -> valid h m /\ separate h m) -> add_header spare h q name text = (h', m') ->
  exists m, m' = Some m /\ (forall k, q = Some k -> m = k) /\ valid h' m /\ separate h' m /\
    forall n, values_at h' m n =
      (match q with Some k => values_at h k n | None => [] end ++ if String.eqb n (canonical_key name) then [text] else [])%list.
Proof. exact header_added. Qed.
Print Assumptions C42_headers_are_added.

(** The names of headers are the same when they differ only in the case of the letters. *)
Theorem C42_header_names : forall s t, str_all is_token_char s = true -> (canonical_key s = canonical_key t <-> str_lower s = str_lower t).
Proof. exact canonical_names. Qed.
Print Assumptions C42_header_names.

(** Changes of a map don't change the maps that don't share arrays with it. *)
Theorem C42_changes_are_local : forall l h m n, n <> m -> valid h m -> valid h n -> disjoint h m n -> contents (run h m l) n = contents h n.
Proof. exact run_frame. Qed.
Print Assumptions C42_changes_are_local.

Example C42_maps : valid ex_heap 0 /\ valid ex_heap 1 /\ separate ex_heap 0 /\
  (let '(h, q) := copy_query ex_heap (Some 0) in
   q = Some 2 /\ contents h 2 = [("size", Some ["a"; "b"]); ("Accept", Some ["x"])] /\
   contents (run h 2 [OpAdd 0 "size" "c"; OpChange "size" 0 "z"; OpDelete "Accept"]) 2 = [("size", Some ["z"; "b"; "c"])]) /\
  (let '(h, q) := copy_query ex_heap (Some 1) in contents h 2 = [("none", None); ("empty", Some [])]).
Proof. split; [exact ex_valid0|]. split; [exact ex_valid1|]. split; [exact ex_separate0|]. vm_compute. repeat split. Qed.
Example C42_header : str_all is_token_char "content-TYPE" = true /\ canonical_key "content-TYPE" = "Content-Type" /\
  (let '(h, q) := add_header 0 ex_heap (Some 0) "accept" "y" in values_at h 0 "Accept" = ["x"; "y"]).
Proof. vm_compute. repeat split. Qed.

(** C43 *)
Theorem C43_joined_segments_are_split : forall i j l, l <> [] -> Forall segment l ->
  segments (slashes i ++ str_join "/" l ++ slashes j) = l.
Proof. exact segments_join. Qed.
Print Assumptions C43_joined_segments_are_split.

Theorem C43_any_path_is_split : forall path, exists i j q, path = slashes i ++ q ++ slashes j /\
  (forall r, q <> String "/" r) /\ (forall r, q <> r ++ "/") /\
  str_join "/" (segments path) = q /\ Forall (fun s => str_all (fun c => negb (Ascii.eqb c "/")) s = true) (segments path).
Proof. exact segments_spec. Qed.
Print Assumptions C43_any_path_is_split.

Example C43_path : Forall segment ["api"; "v1"; "clusters"] /\ segments "//api/v1/clusters/" = ["api"; "v1"; "clusters"] /\
  segments "a//b" = ["a"; ""; "b"] /\ segments "/" = [""].
Proof. split; [repeat constructor; discriminate|]. vm_compute. repeat split. Qed.
