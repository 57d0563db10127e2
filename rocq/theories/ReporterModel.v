(** Model of pkg/reporter/reporter.go. *)
From Coq Require Import Ascii String Bool Arith ZArith DecimalString List.
From Verif Require Import GoStrings NamesModel ConceptsModel.
Import ListNotations.
Local Open Scope string_scope.

(** Standard library function [strconv.Itoa] (and verb [%d]) for natural numbers. *)
Definition itoa (n : nat) : string := NilZero.string_of_uint (Nat.to_uint n).

(** Standard library function [strconv.Itoa] (and verb [%d]) for integers. *)
Definition itoa_z (z : Z) : string := NilZero.string_of_int (Z.to_int z).

(** The methods of the reporter: [Infof], [Warnf] and [Errorf]. *)
Inductive severity := SInfo | SWarn | SError.

(** A call to one of the methods of the reporter.  Simplification: the message is already formatted;
    the verbs [%s] and [%d] of [fmt.Sprintf] are modelled as concatenation. *)
Record report := MkReport { rp_severity : severity; rp_message : string }.

Definition info (m : string) : report := MkReport SInfo m.
Definition warn (m : string) : report := MkReport SWarn m.
Definition err (m : string) : report := MkReport SError m.

(** pkg/reporter/reporter.go:39-43.  The streams are modelled as the text written to them. *)
Record reporter := MkReporter { rr_out : string; rr_err : string; rr_errors : nat }.

(** pkg/reporter/reporter.go:173-177. *)
Definition info_prefix : string := String "027" "[0;32mI:" ++ String "027" "[m ".
Definition warn_prefix : string := String "027" "[0;33mW:" ++ String "027" "[m ".
Definition error_prefix : string := String "027" "[0;31mE:" ++ String "027" "[m ".

Definition newline : string := String "010" "".

(** pkg/reporter/reporter.go:83-105, [Infof], [Warnf] and [Errorf]. *)
Definition apply_report (r : reporter) (p : report) : reporter :=
  match rp_severity p with
  | SInfo => MkReporter (rr_out r ++ info_prefix ++ rp_message p ++ newline) (rr_err r) (rr_errors r)
  | SWarn => MkReporter (rr_out r ++ warn_prefix ++ rp_message p ++ newline) (rr_err r) (rr_errors r)
  | SError =>
      MkReporter (rr_out r) (rr_err r ++ error_prefix ++ rp_message p ++ newline) (S (rr_errors r))
  end.

(** The state of the reporter after a sequence of calls. *)
Definition apply_reports (r : reporter) (l : list report) : reporter := fold_left apply_report l r.

(** pkg/reporter/reporter.go:60-77, [Build]. *)
Definition new_reporter : reporter := MkReporter "" "" 0.

(** pkg/reporter/reporter.go:158-165, [fqn]. *)
Definition fqn (l : list name) : string := str_join "." (map camel l).

(** Number of errors of a sequence of reports ([Errors], pkg/reporter/reporter.go:168-170). *)
Definition error_count (l : list report) : nat := rr_errors (apply_reports new_reporter l).
