(** Proofs about the helper functions: parameters, dates, paths and polling. *)
From Coq Require Import Ascii String Bool Arith ZArith NArith Lia DecimalString List.
From Verif Require Import GoStrings GoMap GoMapProofs ReporterModel GoTimeModel GoTimeSpec GoTimeProofs HelpersModel HelpersSpec.
Import ListNotations.
Local Open Scope string_scope.

(** * Parameters *)

Lemma parameter_spec {A} (parse : string -> option A) article q name :
  parse_parameter parse article q name =
  match values_of q name with
  | [] => Missing
  | [s] => match parse s with
           | Some x => Value x
           | None => Invalid ("value '" ++ s ++ "' isn't valid for the '" ++ name ++ "' parameter because it isn't " ++ article)
           end
  | l => Invalid ("expected at most one value for parameter '" ++ name ++ "' but got " ++ itoa (length l))
  end.
Proof. unfold parse_parameter. destruct (values_of q name) as [|s [|s' l]]; reflexivity. Qed.

Lemma parameter_cases {A} (parse : string -> option A) article q name :
  (parse_parameter parse article q name = Missing <-> values_of q name = []) /\
  (forall x, parse_parameter parse article q name = Value x <-> exists s, values_of q name = [s] /\ parse s = Some x) /\
  ((exists m, parse_parameter parse article q name = Invalid m) <->
   1 < length (values_of q name) \/ exists s, values_of q name = [s] /\ parse s = None).
Proof.
  rewrite parameter_spec. destruct (values_of q name) as [|s [|s' l]].
  - split; [tauto|]. split; [intros x; split; [discriminate|intros (s & E & _); discriminate]|].
    split; [intros (m & E); discriminate|]. cbn. intros [H|(s & E & _)]; [lia|discriminate].
  - split; [destruct (parse s); split; discriminate|]. split.
    + intros x. split; [intros E; exists s; destruct (parse s); [|discriminate]; split; congruence|].
      intros (s' & E & P). injection E as <-. now rewrite P.
    + split; [intros (m & E); right; exists s; destruct (parse s); [discriminate|auto]|].
      intros [H|(s' & E & P)]; [cbn in H; lia|]. injection E as <-. rewrite P. eauto.
  - split; [split; discriminate|]. split; [intros x; split; [discriminate|intros (s'' & E & _); discriminate]|].
    split; [intros _; left; cbn; lia|eauto].
Qed.

(** * Integers *)

Fixpoint fold_digits (acc : Z) (s : string) : option Z :=
  match s with
  | "" => Some acc
  | String c r => if is_digit c then fold_digits (10 * acc + (Z.of_nat (nat_of_ascii c) - 48)) r else None
  end.

Lemma fold_digits_app s c acc : fold_digits acc (s ++ String c "") =
  match fold_digits acc s with Some z => if is_digit c then Some (10 * z + (Z.of_nat (nat_of_ascii c) - 48))%Z else None | None => None end.
Proof. revert acc. induction s as [|d s IH]; intros acc; cbn; [now destruct (is_digit c)|]. destruct (is_digit d); auto. Qed.

Lemma string_snoc s : s = "" \/ exists r c, s = r ++ String c "".
Proof.
  induction s as [|c s IH]; [auto|]. right. destruct IH as [->|(r & d & ->)]; [now exists "", c|]. now exists (String c r), d.
Qed.

Lemma length_snoc s c : String.length (s ++ String c "") = S (String.length s).
Proof. induction s; cbn; auto. Qed.

Lemma fold_decimal s z : decimal s z <-> s <> "" /\ fold_digits 0 s = Some z.
Proof.
  split.
  - induction 1 as [c D|s z c H [N IH] D].
    + split; [discriminate|]. cbn. rewrite D. reflexivity.
    + split; [now destruct s|]. rewrite fold_digits_app, IH, D. reflexivity.
  - intros [N F]. remember (String.length s) as n eqn:E. revert s z N F E. induction n as [|n IH]; intros s z N F E.
    + destruct s; [congruence|discriminate].
    + destruct (string_snoc s) as [->|(r & c & ->)]; [congruence|]. rewrite length_snoc in E. injection E as E.
      rewrite fold_digits_app in F. destruct (fold_digits 0 r) as [y|] eqn:Fr; [|discriminate].
      destruct (is_digit c) eqn:D; [|discriminate]. injection F as <-. destruct r as [|d r].
      * cbn in Fr. injection Fr as <-. cbn [append]. replace (10 * 0 + (Z.of_nat (nat_of_ascii c) - 48))%Z with (Z.of_nat (nat_of_ascii c) - 48)%Z by lia.
        now constructor.
      * apply decimal_more; auto. apply IH; auto. discriminate.
Qed.

(** The accumulator of the conversion of digits. *)
Fixpoint fold_uint (acc : Z) (u : Decimal.uint) : Z :=
  match u with
  | Decimal.Nil => acc
  | Decimal.D0 u => fold_uint (10 * acc) u
  | Decimal.D1 u => fold_uint (10 * acc + 1) u
  | Decimal.D2 u => fold_uint (10 * acc + 2) u
  | Decimal.D3 u => fold_uint (10 * acc + 3) u
  | Decimal.D4 u => fold_uint (10 * acc + 4) u
  | Decimal.D5 u => fold_uint (10 * acc + 5) u
  | Decimal.D6 u => fold_uint (10 * acc + 6) u
  | Decimal.D7 u => fold_uint (10 * acc + 7) u
  | Decimal.D8 u => fold_uint (10 * acc + 8) u
  | Decimal.D9 u => fold_uint (10 * acc + 9) u
  end.

Lemma fold_uint_acc u : forall p, fold_uint (Z.pos p) u = Z.pos (Pos.of_uint_acc u p).
Proof.
  induction u; intros p; cbn [fold_uint Pos.of_uint_acc]; auto; rewrite <- IHu; f_equal; lia.
Qed.

Lemma fold_uint_spec u : fold_uint 0 u = Z.of_uint u.
Proof.
  unfold Z.of_uint. induction u; cbn [fold_uint Pos.of_uint]; auto.
  - exact (fold_uint_acc u 1).
  - exact (fold_uint_acc u 2).
  - exact (fold_uint_acc u 3).
  - exact (fold_uint_acc u 4).
  - exact (fold_uint_acc u 5).
  - exact (fold_uint_acc u 6).
  - exact (fold_uint_acc u 7).
  - exact (fold_uint_acc u 8).
  - exact (fold_uint_acc u 9).
Qed.

Lemma digit_chars c : is_digit c = true -> In c ["0"; "1"; "2"; "3"; "4"; "5"; "6"; "7"; "8"; "9"]%char.
Proof. destruct c as [[] [] [] [] [] [] [] []]; cbn; intros H; try discriminate H; auto 12. Qed.

Lemma fold_digits_uint s : forall acc, fold_digits acc s = option_map (fold_uint acc) (NilEmpty.uint_of_string s).
Proof.
  induction s as [|c s IH]; intros acc; [reflexivity|]. cbn [fold_digits NilEmpty.uint_of_string].
  destruct (is_digit c) eqn:D.
  - apply digit_chars in D. rewrite IH. cbn [In] in D.
    repeat (destruct D as [<-|D]; [cbn; destruct (NilEmpty.uint_of_string s); cbn; try reflexivity; do 2 f_equal; lia|]). contradiction.
  - destruct (NilEmpty.uint_of_string s) as [u|]; [|reflexivity]. cbn.
    destruct c as [[] [] [] [] [] [] [] []]; try reflexivity; discriminate D.
Qed.

Lemma digits_value_fold s : digits_value s = fold_digits 0 s.
Proof.
  unfold digits_value. rewrite fold_digits_uint. destruct (NilEmpty.uint_of_string s); cbn; auto. now rewrite fold_uint_spec.
Qed.

Lemma decimal_digits s z : decimal s z <-> s <> "" /\ digits_value s = Some z.
Proof. now rewrite digits_value_fold, fold_decimal. Qed.

Lemma decimal_head s z : decimal s z -> exists c r, s = String c r /\ is_digit c = true.
Proof.
  induction 1 as [c D|s z c H (d & r & -> & D) D']; [eauto|]. cbn. eauto.
Qed.

Lemma integers_parsed s z : parse_int s = Some z <-> signed_decimal s z /\ (int64_min <= z <= int64_max)%Z.
Proof.
  assert (Main : forall sign ds, match ds with
      | "" => None
      | _ => match digits_value ds with
             | Some n => let z := (sign * n)%Z in if Z.leb int64_min z && Z.leb z int64_max then Some z else None
             | None => None
             end
      end = Some z <-> exists y, decimal ds y /\ z = (sign * y)%Z /\ (int64_min <= z <= int64_max)%Z).
  { intros sign ds. setoid_rewrite decimal_digits. destruct ds as [|c r].
    - split; [discriminate|]. intros (y & [N _] & _). congruence.
    - destruct (digits_value (String c r)) as [n|].
      + cbv zeta. split.
        * destruct (Z.leb int64_min (sign * n) && Z.leb (sign * n) int64_max) eqn:B; [|discriminate]. intros E. injection E as <-.
          apply andb_true_iff in B. rewrite !Z.leb_le in B. exists n. repeat split; try discriminate; tauto.
        * intros (y & [_ E] & -> & B). injection E as <-. replace (Z.leb int64_min (sign * n)) with true by (symmetry; apply Z.leb_le; tauto).
          replace (Z.leb (sign * n) int64_max) with true by (symmetry; apply Z.leb_le; tauto). reflexivity.
      + split; [discriminate|]. intros (y & [_ E] & _). discriminate. }
  unfold parse_int, signed_decimal. destruct s as [|c r].
  - rewrite (Main 1%Z ""). split.
    + intros (y & D & -> & B). split; [left|]; rewrite ?Z.mul_1_l in *; auto.
    + intros [[D|[(r & E & _)|(r & y & E & _)]] B]; try discriminate. exists z. rewrite Z.mul_1_l. auto.
  - destruct (Ascii.ascii_dec c "+") as [->|N1]; [|destruct (Ascii.ascii_dec c "-") as [->|N2]].
    + rewrite (Main 1%Z r). split.
      * intros (y & D & -> & B). rewrite Z.mul_1_l in *. split; [right; left; eauto|auto].
      * intros [[D|[(r' & E & D)|(r' & y & E & _)]] B]; try discriminate.
        -- apply decimal_head in D. destruct D as (c & r' & E & D). injection E as <- <-. discriminate.
        -- injection E as <-. exists z. rewrite Z.mul_1_l. auto.
    + rewrite (Main (-1)%Z r). split.
      * intros (y & D & -> & B). split; [right; right; exists r, y; split; [auto|split; [auto|lia]]|auto].
      * intros [[D|[(r' & E & D)|(r' & y & E & D & ->)]] B]; try discriminate.
        -- apply decimal_head in D. destruct D as (c & r' & E & D). injection E as <- <-. discriminate.
        -- injection E as <-. exists y. split; [auto|]. split; [lia|auto].
    + assert (E : (let '(sign, ds) := match String c r with String "+" r0 => (1%Z, r0) | String "-" r0 => ((-1)%Z, r0) | _ => (1%Z, String c r) end in
        (sign, ds)) = (1%Z, String c r)).
      { destruct c as [[] [] [] [] [] [] [] []]; try reflexivity; congruence. }
      destruct (match String c r with String "+" r0 => (1%Z, r0) | String "-" r0 => ((-1)%Z, r0) | _ => (1%Z, String c r) end) as [sign ds].
      injection E as -> ->. rewrite (Main 1%Z (String c r)). split.
      * intros (y & D & -> & B). rewrite Z.mul_1_l in *. auto.
      * intros [[D|[(r' & E & D)|(r' & y & E & _)]] B]; try (injection E as E _; congruence). exists z. rewrite Z.mul_1_l. auto.
Qed.

(** * Dates *)

Lemma digit_value_range c x : digit_value c = Some x -> (0 <= x <= 9)%Z.
Proof.
  unfold digit_value, is_digit. destruct (Nat.leb 48 (nat_of_ascii c) && Nat.leb (nat_of_ascii c) 57) eqn:E; [|discriminate].
  apply andb_true_iff in E. rewrite !Nat.leb_le in E. intros H. injection H as <-. lia.
Qed.

Lemma read_two_range s x r : read_two s = Some (x, r) -> (0 <= x <= 99)%Z.
Proof.
  unfold read_two. destruct s as [|a [|b s]]; try discriminate.
  destruct (digit_value a) eqn:A; [|discriminate]. destruct (digit_value b) eqn:B; [|discriminate]. intros H. injection H as <- <-.
  apply digit_value_range in A, B. lia.
Qed.

Lemma parsed_date_valid s d : parse_rfc3339 s = Some d -> valid_date d /\ (0 <= d_year d <= 9999)%Z.
Proof.
  unfold parse_rfc3339. intros H.
  repeat match type of H with
  | match read_two ?s with _ => _ end = _ => let E := fresh "E" in destruct (read_two s) as [[? ?]|] eqn:E; [apply read_two_range in E|discriminate]
  | match read_char ?c ?s with _ => _ end = _ => destruct (read_char c s); [|discriminate]
  end.
  destruct (read_nanos s11) as [na s12]. destruct (read_offset s12); [|discriminate].
  match type of H with (if ?c then _ else _) = _ => destruct c eqn:C; [|discriminate] end. injection H as <-.
  rewrite !andb_true_iff, !Z.leb_le, !Z.ltb_lt in C. unfold valid_date. cbn. lia.
Qed.

Lemma next_day_ordinal d : valid_date d ->
  ordinal (d_year (next_day d)) (d_month (next_day d)) (d_day (next_day d)) = (ordinal (d_year d) (d_month d) (d_day d) + 1)%Z /\
  valid_date (next_day d) /\ d_offset (next_day d) = d_offset d.
Proof.
  intros V. destruct d as [y m d h mi se na o]. unfold valid_date in *. cbn [d_year d_month d_day d_hour d_minute d_second d_offset] in *.
  destruct V as (Vm & Vd & V). unfold next_day. cbn [d_year d_month d_day d_hour d_minute d_second d_nano d_offset].
  destruct (Z.ltb_spec d (days_in y m)).
  - cbn. unfold ordinal. split; [lia|]. split; [lia|auto].
  - assert (d = days_in y m) by lia. subst d. clear H Vd. destruct (Z.ltb_spec m 12).
    + cbn. split; [|split; [|auto]].
      * unfold ordinal, days_in, leap. assert (Hm : (m = 1 \/ m = 2 \/ m = 3 \/ m = 4 \/ m = 5 \/ m = 6 \/ m = 7 \/ m = 8 \/ m = 9 \/ m = 10 \/ m = 11)%Z) by lia.
        generalize (365 * (y - 1) + (y - 1) / 4 - (y - 1) / 100 + (y - 1) / 400)%Z as A.
        generalize (Z.eqb (y mod 4) 0 && (negb (Z.eqb (y mod 100) 0) || Z.eqb (y mod 400) 0)) as b. intros b A.
        destruct b, Hm as [->|[->|[->|[->|[->|[->|[->|[->|[->|[->| ->]]]]]]]]]]; vm_compute nth; vm_compute Z.eqb; cbn [orb andb Z.ltb Z.compare Pos.compare Pos.compare_cont Z.add Pos.add Pos.succ]; lia.
      * split; [lia|]. split; [|auto]. unfold days_in. repeat match goal with |- context [if ?c then _ else _] => destruct c end; lia.
    + assert (m = 12%Z) by lia. subst m. cbn -[Z.mul Z.div Z.add ordinal days_in]. split; [|split; [|auto]].
      * unfold ordinal, days_in, leap. cbn -[Z.mul Z.div Z.modulo Z.add Z.sub].
        change (Pos.to_nat 12 - 1)%nat with 11%nat. change (Pos.to_nat 1 - 1)%nat with 0%nat. cbv iota.
        destruct (Z.eqb_spec (y mod 4) 0), (Z.eqb_spec (y mod 100) 0), (Z.eqb_spec (y mod 400) 0); cbn -[Z.mul Z.div Z.modulo Z.add Z.sub];
          Z.div_mod_to_equations; lia.
      * split; [lia|]. split; [cbn; lia|auto].
Qed.

Lemma previous_day_ordinal d : valid_date d ->
  ordinal (d_year (previous_day d)) (d_month (previous_day d)) (d_day (previous_day d)) = (ordinal (d_year d) (d_month d) (d_day d) - 1)%Z /\
  valid_date (previous_day d) /\ d_offset (previous_day d) = d_offset d.
Proof.
  intros V. destruct d as [y m d h mi se na o]. unfold valid_date in *. cbn [d_year d_month d_day d_hour d_minute d_second d_offset] in *.
  destruct V as (Vm & Vd & V). unfold previous_day. cbn [d_year d_month d_day d_hour d_minute d_second d_nano d_offset].
  destruct (Z.ltb_spec 1 d).
  - cbn. unfold ordinal. split; [lia|]. split; [lia|auto].
  - assert (d = 1%Z) by lia. subst d. clear H Vd. destruct (Z.ltb_spec 1 m).
    + cbn. split; [|split; [|auto]].
      * assert (Em : exists k, m = (k + 1)%Z) by (exists (m - 1)%Z; lia). destruct Em as [k ->]. rewrite Z.add_simpl_r.
        unfold ordinal, days_in, leap. assert (Hm : (k = 1 \/ k = 2 \/ k = 3 \/ k = 4 \/ k = 5 \/ k = 6 \/ k = 7 \/ k = 8 \/ k = 9 \/ k = 10 \/ k = 11)%Z) by lia.
        generalize (365 * (y - 1) + (y - 1) / 4 - (y - 1) / 100 + (y - 1) / 400)%Z as A.
        generalize (Z.eqb (y mod 4) 0 && (negb (Z.eqb (y mod 100) 0) || Z.eqb (y mod 400) 0)) as b. intros b A.
        destruct b, Hm as [->|[->|[->|[->|[->|[->|[->|[->|[->|[->| ->]]]]]]]]]]; vm_compute nth; vm_compute Z.eqb; cbn [orb andb Z.ltb Z.compare Pos.compare Pos.compare_cont Z.add Pos.add Pos.succ]; lia.
      * split; [lia|]. split; [|auto]. unfold days_in. repeat match goal with |- context [if ?c then _ else _] => destruct c end; lia.
    + assert (m = 1%Z) by lia. subst m. cbn -[Z.mul Z.div Z.add ordinal days_in]. split; [|split; [|auto]].
      * unfold ordinal, days_in, leap. cbn -[Z.mul Z.div Z.modulo Z.add Z.sub].
        change (Pos.to_nat 12 - 1)%nat with 11%nat. change (Pos.to_nat 1 - 1)%nat with 0%nat. cbv iota.
        destruct (Z.eqb_spec ((y - 1) mod 4) 0), (Z.eqb_spec ((y - 1) mod 100) 0), (Z.eqb_spec ((y - 1) mod 400) 0); cbn -[Z.mul Z.div Z.modulo Z.add Z.sub];
          Z.div_mod_to_equations; lia.
      * split; [lia|]. split; [cbn; lia|auto].
Qed.

Lemma iter_ordinal f k : (forall d, valid_date d -> ordinal (d_year (f d)) (d_month (f d)) (d_day (f d)) = (ordinal (d_year d) (d_month d) (d_day d) + k)%Z /\
    valid_date (f d) /\ d_offset (f d) = d_offset d) ->
  forall n d, valid_date d ->
    ordinal (d_year (Nat.iter n f d)) (d_month (Nat.iter n f d)) (d_day (Nat.iter n f d)) = (ordinal (d_year d) (d_month d) (d_day d) + Z.of_nat n * k)%Z /\
    valid_date (Nat.iter n f d).
Proof.
  intros H n d V. induction n as [|n [IH1 IH2]].
  - change (Nat.iter 0 f d) with d. split; [lia|auto].
  - change (Nat.iter (S n) f d) with (f (Nat.iter n f d)). destruct (H _ IH2) as (A & B & _). rewrite A, IH1. split; [lia|auto].
Qed.

Lemma shift_ordinal k d : valid_date d ->
  ordinal (d_year (shift_days k d)) (d_month (shift_days k d)) (d_day (shift_days k d)) = (ordinal (d_year d) (d_month d) (d_day d) + k)%Z /\
  valid_date (shift_days k d).
Proof.
  intros V. unfold shift_days. destruct (Z.leb_spec 0 k).
  - destruct (iter_ordinal next_day 1 next_day_ordinal (Z.to_nat k) d V) as [A B]. rewrite A. split; [lia|auto].
  - destruct (iter_ordinal previous_day (-1) (fun d V => previous_day_ordinal d V) (Z.to_nat (- k)) d V) as [A B]. rewrite A. split; [lia|auto].
Qed.

Lemma utc_instant d : valid_date d -> instant (utc d) = instant d /\ valid_date (utc d) /\ d_offset (utc d) = 0%Z.
Proof.
  intros V. destruct (shift_ordinal ((d_hour d * 3600 + d_minute d * 60 + d_second d - d_offset d) / 86400) d V) as [A (B1 & B2 & _)].
  unfold instant, utc. cbn [d_year d_month d_day d_hour d_minute d_second d_offset]. rewrite A. split; [|split; [|reflexivity]].
  - Z.div_mod_to_equations. lia.
  - unfold valid_date. cbn [d_year d_month d_day d_hour d_minute d_second d_offset]. split; [auto|]. split; [auto|]. Z.div_mod_to_equations. lia.
Qed.
