(** Proofs about dates and numbers. *)
From Coq Require Import Ascii String Bool Arith ZArith Lia DecimalString DecimalZ DecimalFacts Decimal List.
From Verif Require Import GoStrings GoStringsProofs ReporterModel GoTimeModel GoTimeSpec.
Import ListNotations.
Local Open Scope string_scope.

Lemma digit_cases z : (0 <= z <= 9)%Z ->
  z = 0%Z \/ z = 1%Z \/ z = 2%Z \/ z = 3%Z \/ z = 4%Z \/ z = 5%Z \/ z = 6%Z \/ z = 7%Z \/ z = 8%Z \/ z = 9%Z.
Proof. lia. Qed.

Lemma digit_value_digit z : (0 <= z <= 9)%Z -> digit_value (digit z) = Some z.
Proof. intros H. apply digit_cases in H. repeat destruct H as [->|H]; try reflexivity. now subst. Qed.

Lemma read_two_digits z r : (0 <= z <= 99)%Z -> read_two (two_digits z ++ r) = Some (z, r).
Proof.
  intros H. unfold two_digits. cbn [append read_two].
  assert (0 <= z / 10 mod 10 <= 9)%Z by (pose proof (Z.mod_pos_bound (z / 10) 10); lia).
  assert (0 <= z mod 10 <= 9)%Z by (pose proof (Z.mod_pos_bound z 10); lia).
  rewrite !digit_value_digit by assumption. apply f_equal. apply (f_equal2 pair); [|reflexivity].
  rewrite (Z.mod_small (z / 10)) by (Z.to_euclidean_division_equations; lia).
  pose proof (Z.div_mod z 10). lia.
Qed.

Lemma read_char_same c r : read_char c (String c r) = Some r.
Proof. unfold read_char. now rewrite Ascii.eqb_refl. Qed.

Lemma days_bound y m : (days_in y m <= 31)%Z.
Proof. unfold days_in. repeat match goal with |- context [if ?b then _ else _] => destruct b end; lia. Qed.

Lemma offset_part o m : o = (m * 60)%Z -> (-1440 < m < 1440)%Z ->
  read_offset (if Z.eqb o 0 then "Z"
   else
     let q := (Z.abs (Z.quot o 60))%Z in
     (if Z.ltb (Z.quot o 60) 0 then "-" else "+") ++ two_digits (q / 60) ++ ":" ++ two_digits (q mod 60)) = Some o.
Proof.
  intros -> Hm. rewrite Z.quot_mul by lia. cbv zeta.
  destruct (Z.eqb_spec (m * 60) 0) as [E|E]; [rewrite E; reflexivity|].
  assert (B1 : (0 <= Z.abs m / 60 <= 23)%Z) by (Z.to_euclidean_division_equations; lia).
  assert (B2 : (0 <= Z.abs m mod 60 <= 59)%Z) by (Z.to_euclidean_division_equations; lia).
  assert (D : Z.abs m = (Z.abs m / 60 * 60 + Z.abs m mod 60)%Z) by (pose proof (Z.div_mod (Z.abs m) 60); lia).
  set (h := (Z.abs m / 60)%Z) in *. set (k := (Z.abs m mod 60)%Z) in *.
  assert (G : forall c, (c = "+" \/ c = "-")%char -> read_offset (String c (two_digits h ++ ":" ++ two_digits k)) =
    Some ((if Ascii.eqb c "-" then -1 else 1) * (h * 3600 + k * 60))%Z).
  { intros c Hc. unfold read_offset.
    assert (Ec : (Ascii.eqb c "+" || Ascii.eqb c "-") = true) by (destruct Hc as [->| ->]; reflexivity).
    rewrite Ec, read_two_digits by lia. change (":" ++ two_digits k) with (String ":" (two_digits k)).
    rewrite read_char_same. rewrite <- (sapp_nil_r (two_digits k)), read_two_digits by lia.
    assert (L : (Z.leb h 24 && Z.leb k 60) = true) by (apply andb_true_iff; split; apply Z.leb_le; lia).
    rewrite L. destruct Hc as [->| ->]; reflexivity. }
  destruct (Z.ltb_spec m 0) as [N|N]; cbn [append].
  - refine (eq_trans (G "-"%char (or_intror eq_refl)) _). apply f_equal. change (Ascii.eqb "-" "-") with true. cbv iota. lia.
  - refine (eq_trans (G "+"%char (or_introl eq_refl)) _). apply f_equal. change (Ascii.eqb "+" "-") with false. cbv iota. lia.
Qed.

Lemma no_nanos s c r : s = String c r -> c <> "."%char -> read_nanos s = (0%Z, s).
Proof.
  intros -> H. unfold read_nanos. destruct c as [[] [] [] [] [] [] [] []]; try reflexivity. now contradiction H.
Qed.

Lemma parse_format d : plain_date d -> parse_rfc3339 (format_rfc3339 d) = Some d.
Proof.
  destruct d as [y mo da ho mi se na off]. unfold plain_date. cbn [d_year d_month d_day d_hour d_minute d_second d_nano d_offset].
  intros (Hy & Hmo & Hda & Hho & Hmi & Hse & Hna & (m & Ho & Hm)). subst na.
  pose proof (days_bound y mo) as Hd.
  unfold format_rfc3339. cbn [d_year d_month d_day d_hour d_minute d_second d_nano d_offset].
  unfold four_digits. rewrite !sapp_assoc. unfold parse_rfc3339.
  assert (0 <= y / 100 <= 99)%Z by (Z.to_euclidean_division_equations; lia).
  assert (0 <= y mod 100 <= 99)%Z by (Z.to_euclidean_division_equations; lia).
  rewrite read_two_digits by lia. rewrite read_two_digits by lia.
  Ltac sep c := match goal with |- context [read_char c (?s ++ ?t)] => change (s ++ t) with (String c t); rewrite read_char_same end.
  sep "-"%char. rewrite read_two_digits by lia.
  sep "-"%char. rewrite read_two_digits by lia.
  sep "T"%char. rewrite read_two_digits by lia.
  sep ":"%char. rewrite read_two_digits by lia.
  sep ":"%char. rewrite read_two_digits by lia.
  pose proof (offset_part off m Ho Hm) as P. cbv zeta in *.
  set (tail := if Z.eqb off 0 then "Z" else _) in *.
  assert (T : exists c r, tail = String c r /\ c <> "."%char).
  { unfold tail. destruct (Z.eqb off 0); [exists "Z"%char, ""; split; [reflexivity|discriminate]|].
    destruct (Z.ltb _ _); cbn [append]; eexists _, _; (split; [reflexivity|discriminate]). }
  destruct T as (c & r & Et & Ec). rewrite (no_nanos _ _ _ Et Ec), P.
  replace (y / 100 * 100 + y mod 100)%Z with y by (pose proof (Z.div_mod y 100); lia).
  assert (C : (Z.leb 1 mo && Z.leb mo 12 && Z.leb 1 da && Z.leb da (days_in y mo) && Z.ltb ho 24 && Z.ltb mi 60 && Z.ltb se 60) = true).
  { rewrite !andb_true_iff. repeat split; (apply Z.leb_le || apply Z.ltb_lt); lia. }
  rewrite C. reflexivity.
Qed.

(** * Integers *)

Lemma digits_string u : digits_value (NilEmpty.string_of_uint u) = Some (Z.of_uint u).
Proof. unfold digits_value. now rewrite NilEmpty.usu. Qed.

Lemma zero_string u : NilZero.string_of_uint u = match u with Nil => "0" | _ => NilEmpty.string_of_uint u end.
Proof. reflexivity. Qed.

Lemma parse_unsigned u : (Z.of_uint u <= int64_max)%Z -> parse_int (NilZero.string_of_uint u) = Some (Z.of_uint u).
Proof.
  intros H. assert (P : (int64_min <= Z.of_uint u)%Z).
  { transitivity 0%Z; [unfold int64_min; lia|]. unfold Z.of_uint. apply N2Z.is_nonneg. }
  assert (R : (Z.leb int64_min (1 * Z.of_uint u) && Z.leb (1 * Z.of_uint u) int64_max) = true).
  { rewrite Z.mul_1_l. apply andb_true_iff. split; apply Z.leb_le; assumption. }
  unfold parse_int. pose proof (digits_string u) as D.
  rewrite zero_string. remember (Z.of_uint u) as n eqn:En. destruct u; [subst n; vm_compute; reflexivity|..];
    cbn [NilEmpty.string_of_uint] in *; cbv beta iota zeta; rewrite D; cbv beta iota zeta; rewrite R, Z.mul_1_l; reflexivity.
Qed.

Lemma parse_negative u : (int64_min <= - Z.of_uint u)%Z -> parse_int (String "-" (NilZero.string_of_uint u)) = Some (- Z.of_uint u)%Z.
Proof.
  intros H. assert (P : (- Z.of_uint u <= int64_max)%Z).
  { transitivity 0%Z; [|unfold int64_max; lia]. unfold Z.of_uint. pose proof (N2Z.is_nonneg (N.of_uint u)). lia. }
  assert (R : (Z.leb int64_min (-1 * Z.of_uint u) && Z.leb (-1 * Z.of_uint u) int64_max) = true).
  { replace (-1 * Z.of_uint u)%Z with (- Z.of_uint u)%Z by lia. apply andb_true_iff. split; apply Z.leb_le; assumption. }
  assert (E : (-1 * Z.of_uint u)%Z = (- Z.of_uint u)%Z) by lia.
  unfold parse_int. pose proof (digits_string u) as D.
  rewrite zero_string. remember (Z.of_uint u) as n eqn:En. destruct u; [subst n; vm_compute; reflexivity|..];
    cbn [NilEmpty.string_of_uint] in *; cbv beta iota zeta; rewrite D; cbv beta iota zeta; rewrite R, E; reflexivity.
Qed.

Lemma parse_itoa z : (int64_min <= z <= int64_max)%Z -> parse_int (itoa_z z) = Some z.
Proof.
  intros H. unfold itoa_z. pose proof (DecimalZ.of_to z) as E. destruct (Z.to_int z) as [u|u]; cbn [Z.of_int] in E;
    cbn [NilZero.string_of_int]; subst z; [apply parse_unsigned|apply parse_negative]; apply H.
Qed.
