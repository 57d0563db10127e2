(** Model of the part of the [time] and [strconv] packages used by the generated code. *)
From Coq Require Import Ascii String Bool Arith ZArith DecimalString List.
From Verif Require Import GoStrings.
Import ListNotations.
Local Open Scope string_scope.

(** Values of type [time.Time], as their wall clock and the offset of their location in seconds east of
    UTC.  Simplification: the name of the location and the monotonic clock aren't modelled. *)
Record date := MkDate {
  d_year : Z; d_month : Z; d_day : Z; d_hour : Z; d_minute : Z; d_second : Z; d_nano : Z; d_offset : Z }.

(** The zero value [time.Time{}]. *)
Definition zero_date : date := MkDate 1 1 1 0 0 0 0 0.

(** The character for a digit. *)
Definition digit (z : Z) : ascii := ascii_of_nat (48 + Z.to_nat z).

(** The value of a digit. *)
Definition digit_value (c : ascii) : option Z :=
  if is_digit c then Some (Z.of_nat (nat_of_ascii c) - 48)%Z else None.

(** Two digits. *)
Definition two_digits (z : Z) : string := String (digit (z / 10 mod 10)) (String (digit (z mod 10)) "").

(** Four digits. *)
Definition four_digits (z : Z) : string := two_digits (z / 100) ++ two_digits (z mod 100).

(** Standard library method [Time.Format] with the layout [time.RFC3339].  Simplification: years outside
    of 0 to 9999 are written by Go with other numbers of digits. *)
Definition format_rfc3339 (d : date) : string :=
  four_digits (d_year d) ++ "-" ++ two_digits (d_month d) ++ "-" ++ two_digits (d_day d) ++ "T" ++
  two_digits (d_hour d) ++ ":" ++ two_digits (d_minute d) ++ ":" ++ two_digits (d_second d) ++
  (if Z.eqb (d_offset d) 0 then "Z"
   else
     let o := (Z.abs (Z.quot (d_offset d) 60))%Z in
     (if Z.ltb (Z.quot (d_offset d) 60) 0 then "-" else "+") ++ two_digits (o / 60) ++ ":" ++ two_digits (o mod 60)).

(** Number of days of a month. *)
Definition days_in (y m : Z) : Z :=
  if Z.eqb m 2 then
    if (Z.eqb (y mod 4) 0 && (negb (Z.eqb (y mod 100) 0) || Z.eqb (y mod 400) 0)) then 29 else 28
  else if Z.eqb m 4 || Z.eqb m 6 || Z.eqb m 9 || Z.eqb m 11 then 30 else 31.

(** Reads two digits. *)
Definition read_two (s : string) : option (Z * string) :=
  match s with
  | String a (String b r) =>
      match digit_value a, digit_value b with
      | Some x, Some y => Some ((x * 10 + y)%Z, r)
      | _, _ => None
      end
  | _ => None
  end.

(** Reads one specific character. *)
Definition read_char (c : ascii) (s : string) : option string :=
  match s with
  | String d r => if Ascii.eqb c d then Some r else None
  | EmptyString => None
  end.

(** Reads the digits of the fraction of a second; [scale] is the weight of the next digit in
    nanoseconds, digits after the ninth are ignored. *)
Fixpoint read_fraction (scale acc : Z) (s : string) : Z * string :=
  match s with
  | String c r =>
      match digit_value c with
      | Some x => read_fraction (scale / 10) (acc + x * scale) r
      | None => (acc, s)
      end
  | EmptyString => (acc, s)
  end.

(** The optional fraction of a second, after a dot. *)
Definition read_nanos (s : string) : Z * string :=
  match s with
  | String "." (String c r) =>
      match digit_value c with
      | Some _ => read_fraction 100000000 0 (String c r)
      | None => (0%Z, s)
      end
  | _ => (0%Z, s)
  end.

(** The offset at the end of a date. *)
Definition read_offset (s : string) : option Z :=
  match s with
  | "Z" => Some 0%Z
  | String c r =>
      if Ascii.eqb c "+" || Ascii.eqb c "-" then
        match read_two r with
        | Some (h, r) =>
            match read_char ":" r with
            | Some r =>
                match read_two r with
                | Some (m, "") =>
                    if Z.leb h 24 && Z.leb m 60
                    then Some ((if Ascii.eqb c "-" then -1 else 1) * (h * 3600 + m * 60))%Z
                    else None
                | _ => None
                end
            | None => None
            end
        | None => None
        end
      else None
  | EmptyString => None
  end.

(** Standard library function [time.Parse] with the layout [time.RFC3339].  Simplifications: commas
    before the fraction and hours of one digit, which some versions of Go accept, are rejected. *)
Definition parse_rfc3339 (s : string) : option date :=
  match read_two s with Some (y1, s) =>
  match read_two s with Some (y2, s) =>
  match read_char "-" s with Some s =>
  match read_two s with Some (mo, s) =>
  match read_char "-" s with Some s =>
  match read_two s with Some (da, s) =>
  match read_char "T" s with Some s =>
  match read_two s with Some (ho, s) =>
  match read_char ":" s with Some s =>
  match read_two s with Some (mi, s) =>
  match read_char ":" s with Some s =>
  match read_two s with Some (se, s) =>
    let '(na, s) := read_nanos s in
    match read_offset s with
    | Some off =>
        let y := (y1 * 100 + y2)%Z in
        if Z.leb 1 mo && Z.leb mo 12 && Z.leb 1 da && Z.leb da (days_in y mo) && Z.ltb ho 24 && Z.ltb mi 60 && Z.ltb se 60
        then Some (MkDate y mo da ho mi se na off)
        else None
    | None => None
    end
  | None => None end | None => None end | None => None end | None => None end | None => None end | None => None end
  | None => None end | None => None end | None => None end | None => None end | None => None end | None => None end.

(** Value of a string of decimal digits. *)
Definition digits_value (s : string) : option Z := option_map Z.of_uint (NilEmpty.uint_of_string s).

(** Range of the Go types [int] and [int64]. *)
Definition int64_min : Z := (- 2 ^ 63)%Z.
Definition int64_max : Z := (2 ^ 63 - 1)%Z.

(** Standard library function [strconv.ParseInt] with base 10 and 64 bits. *)
Definition parse_int (s : string) : option Z :=
  let '(sign, ds) :=
    match s with
    | String "+" r => (1%Z, r)
    | String "-" r => ((-1)%Z, r)
    | _ => (1%Z, s)
    end in
  match ds with
  | EmptyString => None
  | _ =>
      match digits_value ds with
      | Some n => let z := (sign * n)%Z in if Z.leb int64_min z && Z.leb z int64_max then Some z else None
      | None => None
      end
  end.

(** Standard library function [strconv.ParseBool]. *)
Definition parse_bool (s : string) : option bool :=
  if existsb (String.eqb s) ["1"; "t"; "T"; "true"; "TRUE"; "True"] then Some true
  else if existsb (String.eqb s) ["0"; "f"; "F"; "false"; "FALSE"; "False"] then Some false
  else None.
