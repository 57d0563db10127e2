(** Examples used to show that the hypotheses of the theorems about the errors of the API can be satisfied. *)
From Coq Require Import Ascii String Bool Arith ZArith NArith Lia List.
From Verif Require Import GoStrings GoMap GoTimeModel ObjectsModel ObjectsSpec JsonModel JsonSpec JsonExamples HelpersSpec HelpersProofs2 ApiErrorModel ApiErrorSpec ApiErrorProofs
  ApiErrorProofs2.
Import ListNotations.
Local Open Scope string_scope.

Definition ex_moment : date := MkDate 2020 2 29 23 59 7 120000000 (-3600).

Definition ex_error : api_error :=
  build_error (set_timestamp (Some ex_moment) (set_details (AMap [("a", AFloat 5); ("b", ASlice [ABool true; ANil; AString "x"])])
    (set_operation "op-1" (set_reason "It ""failed""" (set_code "CLUSTERS-MGMT-404" (set_id "404" (set_status 404 new_error))))))).

Lemma ex_moment_precise : precise_date ex_moment.
Proof.
  unfold precise_date, ex_moment. cbn [d_year d_month d_day d_hour d_minute d_second d_nano d_offset].
  repeat (split; [vm_compute; intuition discriminate|]). exists (-60)%Z. lia.
Qed.

Lemma ex_error_typed : error_typed ex_error.
Proof. split; [vm_compute; intuition discriminate|]. cbn. repeat split. repeat constructor. Qed.

Lemma ex_error_lossless : error_lossless ex_error.
Proof. intros t H. vm_compute in H. injection H as <-. exists ex_moment. split; [reflexivity|exact ex_moment_precise]. Qed.

Definition ex_error_document : list token :=
  match write_error ex_oracle (Some ex_error) with WOk l => l | _ => [] end.
Lemma ex_error_written : write_error ex_oracle (Some ex_error) = WOk ex_error_document.
Proof. reflexivity. Qed.

(** An error whose timestamp is nil. *)
Definition ex_nil_timestamp : api_error := build_error (set_timestamp None (set_id "500" new_error)).

Lemma nil_timestamp_lost : exists e l, error_typed e /\ write_error ex_oracle (Some e) = WOk l /\
  forall inc, unmarshal_error ex_oracle inc l = Failed.
Proof.
  exists ex_nil_timestamp. eexists. split; [vm_compute; intuition discriminate|]. split; [reflexivity|]. intros inc. reflexivity.
Qed.

Lemma nil_timestamp_panics : exists e, error_typed e /\ error_message e = None.
Proof. exists ex_nil_timestamp. split; [vm_compute; intuition discriminate|reflexivity]. Qed.

Lemma ex_signed_404 : signed_decimal (fst (get_id (Some ex_error))) 404.
Proof. refine (proj1 (proj1 (integers_parsed _ _) _)). reflexivity. Qed.

Lemma ex_not_numeric z : signed_decimal (fst (get_id (Some (set_id "not-found" new_error)))) z -> ~ (int64_min <= z <= int64_max)%Z.
Proof. intros S R. pose proof (proj2 (integers_parsed _ _) (conj S R)) as H. vm_compute in H. discriminate H. Qed.

Lemma ex_panic_id : signed_decimal (fst (get_id (Some panic_error))) 1000 /\ (int64_min <= 1000 <= int64_max)%Z /\ ~ (100 <= 1000 <= 999)%Z.
Proof. assert (P : parse_int (fst (get_id (Some panic_error))) = Some 1000%Z) by reflexivity. apply integers_parsed in P. split; [apply P|]. split; [apply P|lia]. Qed.

Lemma panic_not_sent : exists e, signed_decimal (fst (get_id (Some e))) 1000 /\ forall o, send_error o (Some e) = SendPanics.
Proof. exists panic_error. split; [apply ex_panic_id|]. intros o. reflexivity. Qed.
