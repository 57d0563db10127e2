(** Property theorems about the errors of the API (C44 to C46). *)
From Coq Require Import Ascii String Bool Arith ZArith NArith Lia List.
From Verif Require Import GoStrings GoMap GoTimeModel ObjectsModel ObjectsSpec JsonModel JsonSpec JsonExamples HelpersSpec ApiErrorModel ApiErrorSpec
  ApiErrorProofs ApiErrorProofs2 ApiErrorExamples.
Import ListNotations.
Local Open Scope string_scope.

(** C44: the document written for an error is well formed, and its members are the kind and the attributes
    that are present, with their values. *)
Theorem C44_documents : forall o e l, faithful o -> error_typed e -> write_error o (Some e) = WOk l ->
  exists m, l = tokens (JObj m) /\ well_formed (JObj m) /\ describes o e m.
Proof. exact error_document. Qed.
Print Assumptions C44_documents.
Example C44_documents_ex : faithful ex_oracle /\ error_typed ex_error /\ write_error ex_oracle (Some ex_error) = WOk ex_error_document.
Proof. exact (conj ex_faithful (conj ex_error_typed ex_error_written)). Qed.

(** Writing fails only if a number of the details can't be written or the year of the timestamp doesn't have
    four digits. *)
Theorem C44_written : forall o e, faithful o -> error_typed e -> (exists l, write_error o (Some e) = WOk l) <-> error_printable o e.
Proof. exact error_write_succeeds. Qed.
Print Assumptions C44_written.
Example C44_written_ex : exists e, error_typed e /\ ~ error_printable ex_oracle e.
Proof.
  exists (set_timestamp (Some (MkDate 10000 1 1 0 0 0 0 0)) new_error). split; [vm_compute; intuition discriminate|].
  intros [_ H]. specialize (H _ eq_refl). vm_compute in H. intuition congruence.
Qed.

(** Reading the document gives the same attributes. *)
Theorem C44_round_trip : forall o inc e l, faithful o -> error_typed e -> error_lossless e -> write_error o (Some e) = WOk l ->
  exists r, unmarshal_error o inc l = Ok r [] /\ same_error e r.
Proof. exact error_back. Qed.
Print Assumptions C44_round_trip.
Example C44_round_trip_ex : faithful ex_oracle /\ error_typed ex_error /\ error_lossless ex_error /\
  write_error ex_oracle (Some ex_error) = WOk ex_error_document /\ snd (get_status (Some ex_error)) = true /\ snd (get_href (Some ex_error)) = false.
Proof. exact (conj ex_faithful (conj ex_error_typed (conj ex_error_lossless (conj ex_error_written (conj eq_refl eq_refl))))). Qed.

(** What is read from any document, and which documents are accepted. *)
Theorem C44_reading : forall o inc l, ~ In "" (map fst l) -> NoDup (map fst l) ->
    ((exists r, unmarshal_error o inc (tokens (JObj l)) = Ok r []) <->
     is_integer (mget "status" l) /\ is_string (mget "id" l) /\ is_string (mget "href" l) /\ is_string (mget "code" l) /\
     is_string (mget "reason" l) /\ is_string (mget "operation_id" l) /\ is_date (mget "timestamp" l)) /\
    (forall r rest, unmarshal_error o inc (tokens (JObj l)) = Ok r rest -> rest = [] /\
     get_status (Some r) = integer_of (mget "status" l) /\ get_id (Some r) = string_of (mget "id" l) /\
     get_href (Some r) = string_of (mget "href" l) /\ get_code (Some r) = string_of (mget "code" l) /\
     get_reason (Some r) = string_of (mget "reason" l) /\ get_operation (Some r) = string_of (mget "operation_id" l) /\
     get_timestamp (Some r) = date_of (mget "timestamp" l) /\
     match mget "details" l with
     | None => get_details (Some r) = (ANil, false)
     | Some j => snd (get_details (Some r)) = true /\ forall a, any_of o j = Some a -> fst (get_details (Some r)) = a
     end).
Proof. exact document_read. Qed.
Print Assumptions C44_reading.
Example C44_reading_ex : let l := [("unknown", JArr [JNull]); ("status", JNum "404"); ("code", JNull)] in ~ In "" (map fst l) /\ NoDup (map fst l).
Proof. split; [cbn; intuition discriminate|repeat constructor; cbn; intuition discriminate]. Qed.

(** The fuel of the model isn't observable. *)
Theorem C44_terminates : forall o inc l, unmarshal_error o inc l <> OutOfFuel.
Proof. exact error_fuel. Qed.
Print Assumptions C44_terminates.

Theorem C44_status_overridden : forall o inc l z,
    (forall r rest, unmarshal_error_status o inc l z = Ok r rest ->
      exists e, unmarshal_error o inc l = Ok e rest /\ get_status (Some r) = (z, true) /\ same_but_status e r) /\
    (unmarshal_error_status o inc l z = Failed <-> unmarshal_error o inc l = Failed).
Proof. exact status_overridden. Qed.
Print Assumptions C44_status_overridden.
Example C44_status_overridden_ex : exists r, unmarshal_error_status ex_oracle (fun _ => ANil) ex_error_document 503 = Ok r [] /\
  get_status (Some r) = (503%Z, true) /\ get_id (Some r) = ("404", true).
Proof. eexists. split; [vm_compute; reflexivity|split; reflexivity]. Qed.

(** The methods of the builder change one attribute, and building and copying keep all of them. *)
Theorem C44_builder : forall e z id href code reason operation details timestamp,
  changed (ChStatus z) e (set_status z e) /\ changed (ChId id) e (set_id id e) /\ changed (ChHref href) e (set_href href e) /\
  changed (ChCode code) e (set_code code e) /\ changed (ChReason reason) e (set_reason reason e) /\
  changed (ChOperation operation) e (set_operation operation e) /\ changed (ChDetails details) e (set_details details e) /\
  changed (ChTimestamp timestamp) e (set_timestamp timestamp e).
Proof.
  exact (fun e z id href code reason operation details timestamp =>
    conj (change_applied (ChStatus z) e) (conj (change_applied (ChId id) e) (conj (change_applied (ChHref href) e)
      (conj (change_applied (ChCode code) e) (conj (change_applied (ChReason reason) e) (conj (change_applied (ChOperation operation) e)
        (conj (change_applied (ChDetails details) e) (change_applied (ChTimestamp timestamp) e)))))))).
Qed.
Print Assumptions C44_builder.

Theorem C44_build_and_copy : forall b e, same_error e (build_error e) /\ same_error e (copy_error b (Some e)) /\ same_error b (copy_error b None) /\
  error_kind (Some e) = "Error".
Proof. exact build_and_copy. Qed.
Print Assumptions C44_build_and_copy.

Theorem C44_new : get_status (Some new_error) = (0%Z, false) /\ get_id (Some new_error) = ("", false) /\ get_href (Some new_error) = ("", false) /\
  get_code (Some new_error) = ("", false) /\ get_reason (Some new_error) = ("", false) /\ get_operation (Some new_error) = ("", false) /\
  get_details (Some new_error) = (ANil, false) /\ get_timestamp (Some new_error) = (None, false).
Proof. exact new_empty. Qed.
Print Assumptions C44_new.

(** The methods that don't return a flag return the same value, which is the zero value when the attribute
    isn't present. *)
Theorem C44_plain_getters : forall e,
  error_status e = fst (get_status e) /\ error_id e = fst (get_id e) /\ error_href e = fst (get_href e) /\ error_code e = fst (get_code e) /\
  error_reason e = fst (get_reason e) /\ error_operation e = fst (get_operation e) /\ error_details e = fst (get_details e) /\
  error_timestamp e = fst (get_timestamp e).
Proof. exact plain_getters. Qed.
Print Assumptions C44_plain_getters.

(** A timestamp that is present and nil can be written, but what is written can't be read. *)
Theorem C44_nil_timestamp_refuted : exists e l, error_typed e /\ write_error ex_oracle (Some e) = WOk l /\
  forall inc, unmarshal_error ex_oracle inc l = Failed.
Proof. exact nil_timestamp_lost. Qed.
Print Assumptions C44_nil_timestamp_refuted.

(** C45 *)
Theorem C45_messages : forall e, (forall t, get_timestamp (Some e) = (t, true) -> t <> None) ->
  error_message e = Some
    (match mentions e, get_reason (Some e) with
     | [], (s, true) => if String.eqb s "" then "unknown error" else s
     | [], (_, false) => "unknown error"
     | l, (s, true) => enumeration l ++ ": " ++ s
     | l, (_, false) => enumeration l
     end).
Proof. exact message_spec. Qed.
Print Assumptions C45_messages.
Example C45_messages_ex : (forall t, get_timestamp (Some ex_error) = (t, true) -> t <> None) /\
  error_message ex_error = Some ("status is 404, identifier is '404', code is 'CLUSTERS-MGMT-404', at '2020-02-29T23:59:07-01:00' and " ++
    "operation identifier is 'op-1': It ""failed""").
Proof. split; [intros t H; vm_compute in H; injection H as <-; discriminate|reflexivity]. Qed.

Theorem C45_not_empty : forall e s, error_message e = Some s -> s <> "".
Proof. exact message_not_empty. Qed.
Print Assumptions C45_not_empty.

(** The only errors without a message are those with a timestamp that is present and nil. *)
Theorem C45_panics : forall e, error_message e = None <-> get_timestamp (Some e) = (None, true).
Proof. exact message_panics. Qed.
Print Assumptions C45_panics.

Theorem C45_nil_timestamp_refuted : exists e, error_typed e /\ error_message e = None.
Proof. exact nil_timestamp_panics. Qed.
Print Assumptions C45_nil_timestamp_refuted.

(** C46: the status is the identifier, when it is a number of three digits. *)
Theorem C46_status : forall o e z, signed_decimal (fst (get_id (Some e))) z -> (100 <= z <= 999)%Z ->
  send_error o (Some e) = Sent z "application/json" (write_error o (Some e)).
Proof. exact sent_status. Qed.
Print Assumptions C46_status.
Example C46_status_ex : signed_decimal (fst (get_id (Some ex_error))) 404 /\ (100 <= 404 <= 999)%Z.
Proof. split; [exact ex_signed_404|lia]. Qed.

(** Identifiers that aren't numbers are answered with the error that is used for panics, but with the default
    status. *)
Theorem C46_not_numeric : forall o e, (forall z, signed_decimal (fst (get_id e)) z -> ~ (int64_min <= z <= int64_max)%Z) ->
  send_error o e = Sent 200 "application/json" (write_error o (Some panic_error)).
Proof. exact sent_panic. Qed.
Print Assumptions C46_not_numeric.
Example C46_not_numeric_ex : forall z, signed_decimal (fst (get_id (Some (set_id "not-found" new_error)))) z -> ~ (int64_min <= z <= int64_max)%Z.
Proof. exact ex_not_numeric. Qed.

Theorem C46_panic_error : forall o,
  is_reply o (send_panic o) 200 "1000" "An unexpected error happened, please check the log of the service for details".
Proof. exact panic_reply. Qed.
Print Assumptions C46_panic_error.

Theorem C46_not_found : forall o path, is_reply o (send_not_found o path) 404 "404" ("Can't find resource for path '" ++ path ++ "'").
Proof. exact not_found. Qed.
Print Assumptions C46_not_found.
Theorem C46_method_not_allowed : forall o method path,
  is_reply o (send_method_not_allowed o method path) 405 "405" ("Method '" ++ method ++ "' isn't supported for path '" ++ path ++ "'").
Proof. exact not_allowed. Qed.
Print Assumptions C46_method_not_allowed.
Theorem C46_internal_server_error : forall o method path,
  is_reply o (send_internal_server_error o method path) 500 "500"
    ("Can't process '" ++ method ++ "' request for path '" ++ path ++ "' due to an internalserver error").
Proof. exact internal_error. Qed.
Print Assumptions C46_internal_server_error.

(** Numeric identifiers that aren't valid status codes make the handler panic... *)
Theorem C46_invalid_status : forall o e z, signed_decimal (fst (get_id e)) z -> (int64_min <= z <= int64_max)%Z -> ~ (100 <= z <= 999)%Z ->
  send_error o e = SendPanics.
Proof. exact sent_invalid. Qed.
Print Assumptions C46_invalid_status.
Example C46_invalid_status_ex : signed_decimal (fst (get_id (Some panic_error))) 1000 /\ (int64_min <= 1000 <= int64_max)%Z /\ ~ (100 <= 1000 <= 999)%Z.
Proof. exact ex_panic_id. Qed.

(** ... so the status isn't always the numeric identifier, and errors are sent with status 200. *)
Theorem C46_status_is_identifier_refuted : exists e, signed_decimal (fst (get_id (Some e))) 1000 /\ forall o, send_error o (Some e) = SendPanics.
Proof. exact panic_not_sent. Qed.
Print Assumptions C46_status_is_identifier_refuted.
