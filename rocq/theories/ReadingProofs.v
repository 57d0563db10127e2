(** Proofs about reading documents: integers and dates. *)
From Coq Require Import Ascii String Bool Arith ZArith NArith Lia List.
From Verif Require HelpersProofs2.
From Verif Require Import ConformSpec ConformProofs.
From Verif Require Import GoStrings GoStringsProofs GoMap NamesModel ConceptsModel BindingModel GoNamesModel GoTimeModel GoTimeProofs ReporterModel ObjectsModel ObjectsSpec JsonModel JsonSpec
  ReadingSpec.
Import ListNotations.
Local Open Scope string_scope.

(** * Digits *)

Lemma is_digit_iff c : is_digit c = true <-> 48 <= nat_of_ascii c <= 57.
Proof. unfold is_digit. rewrite andb_true_iff, !Nat.leb_le. reflexivity. Qed.

Lemma decimal_fold s : decimal s = fold_left step (list_ascii_of_string s) 0%Z.
Proof. reflexivity. Qed.

Lemma fold_digits_iff s : forall acc z, HelpersProofs2.fold_digits acc s = Some z <-> digits s /\ z = fold_left step (list_ascii_of_string s) acc.
Proof.
  induction s as [|c s IH]; intros acc z; cbn [HelpersProofs2.fold_digits digits list_ascii_of_string fold_left].
  - split; [intros E; injection E as <-; auto|]. intros [_ ->]. reflexivity.
  - destruct (is_digit c) eqn:D.
    + rewrite IH. apply is_digit_iff in D. unfold step at 3. rewrite (Z.mul_comm acc 10). tauto.
    + split; [discriminate|]. intros [[H _] _]. apply is_digit_iff in H. congruence.
Qed.

Lemma digits_value_iff s z : digits_value s = Some z <-> digits s /\ z = decimal s.
Proof. rewrite HelpersProofs2.digits_value_fold. apply fold_digits_iff. Qed.

Lemma digits_head c s : digits (String c s) -> c <> "+"%char /\ c <> "-"%char /\ c <> "."%char /\ c <> "Z"%char.
Proof. intros [H _]. repeat split; intros ->; revert H; vm_compute; lia. Qed.

Lemma parse_digits s z : (match s with "" => None | _ => match digits_value s with
    | Some n => let z := (1 * n)%Z in if Z.leb int64_min z && Z.leb z int64_max then Some z else None | None => None end end) = Some z <->
  s <> "" /\ digits s /\ z = decimal s /\ (int64_min <= z <= int64_max)%Z.
Proof.
  destruct s as [|c s]; [split; [discriminate|intros [H _]; congruence]|]. destruct (digits_value (String c s)) as [n|] eqn:E.
  - apply digits_value_iff in E as [D ->]. cbv zeta. rewrite Z.mul_1_l. destruct (Z.leb_spec int64_min (decimal (String c s))), (Z.leb_spec (decimal (String c s)) int64_max); cbn [andb];
      (split; [intros Q; first [discriminate Q|injection Q as <-; split; [discriminate|]; split; [assumption|]; split; [reflexivity|]; split; assumption]|]);
      intros (_ & _ & -> & R); try reflexivity; lia.
  - split; [discriminate|]. intros (_ & D & -> & _). exfalso. assert (Some (decimal (String c s)) = None) by (rewrite <- E; symmetry; now apply digits_value_iff). discriminate.
Qed.

Lemma parse_negated s z : (match s with "" => None | _ => match digits_value s with
    | Some n => let z := (-1 * n)%Z in if Z.leb int64_min z && Z.leb z int64_max then Some z else None | None => None end end) = Some z <->
  s <> "" /\ digits s /\ z = (- decimal s)%Z /\ (int64_min <= z <= int64_max)%Z.
Proof.
  destruct s as [|c s]; [split; [discriminate|intros [H _]; congruence]|]. destruct (digits_value (String c s)) as [n|] eqn:E.
  - apply digits_value_iff in E as [D ->]. cbv zeta. replace (-1 * decimal (String c s))%Z with (- decimal (String c s))%Z by lia.
    destruct (Z.leb_spec int64_min (- decimal (String c s))), (Z.leb_spec (- decimal (String c s)) int64_max); cbn [andb];
      (split; [intros Q; first [discriminate Q|injection Q as <-; split; [discriminate|]; split; [assumption|]; split; [reflexivity|]; split; assumption]|]);
      intros (_ & _ & -> & R); try reflexivity; lia.
  - split; [discriminate|]. intros (_ & D & -> & _). exfalso. assert (Some (decimal (String c s)) = None) by (rewrite <- E; symmetry; now apply digits_value_iff). discriminate.
Qed.

Lemma number_head s c r : json_number s -> s = String c r -> c <> "+"%char.
Proof.
  intros (sign & int & frac & exp & -> & Hs & Hi & _) E ->. destruct Hs as [-> | ->]; [|discriminate E].
  destruct Hi as [-> | (c & r' & -> & _ & D)]; [discriminate E|]. cbn in E. injection E as -> _. destruct D as [D _]. revert D. vm_compute. lia.
Qed.

Lemma int64_range z : (int64_min <= z <= int64_max)%Z <-> (- 2 ^ 63 <= z < 2 ^ 63)%Z.
Proof. unfold int64_min, int64_max. lia. Qed.

Lemma integer_read s z : json_number s -> (parse_int s = Some z <-> integer_text s z /\ (- 2 ^ 63 <= z < 2 ^ 63)%Z).
Proof.
  intros J. rewrite <- int64_range. destruct s as [|c r].
  { split; [discriminate|]. intros ((d & N & _ & [[E _]|[E _]]) & _); [congruence|discriminate E]. }
  pose proof (number_head _ c r J eq_refl) as Np. destruct (ascii_dec c "-") as [->|Nm].
  - change (parse_int (String "-" r)) with (match r with "" => None | _ => match digits_value r with
      | Some n => let z := (-1 * n)%Z in if Z.leb int64_min z && Z.leb z int64_max then Some z else None | None => None end end).
    etransitivity; [exact (parse_negated r z)|]. split.
    + intros (N & D & E & R). split; [|assumption]. exists r. auto.
    + intros ((d & N & D & [[E _]|[E Ez]]) & R).
      * subst d. apply digits_head in D. destruct D as (_ & D & _). congruence.
      * cbn in E. injection E as ->. auto.
  - assert (P : parse_int (String c r) = match String c r with "" => None | _ => match digits_value (String c r) with
      | Some n => let z := (1 * n)%Z in if Z.leb int64_min z && Z.leb z int64_max then Some z else None | None => None end end).
    { unfold parse_int. destruct c as [[] [] [] [] [] [] [] []]; try reflexivity; congruence. }
    rewrite P. etransitivity; [exact (parse_digits (String c r) z)|]. split.
    + intros (N & D & E & R). split; [|assumption]. exists (String c r). auto.
    + intros ((d & N & D & [[E Ez]|[E Ez]]) & R); [subst d; auto|]. cbn in E. congruence.
Qed.

(** * Dates *)

Lemma digit_value_iff c z : digit_value c = Some z <-> 48 <= nat_of_ascii c <= 57 /\ z = (Z.of_nat (nat_of_ascii c) - 48)%Z.
Proof.
  unfold digit_value. destruct (is_digit c) eqn:D.
  - apply is_digit_iff in D. split; [intros E; injection E as <-; auto|]. intros [_ ->]. reflexivity.
  - split; [discriminate|]. intros [H _]. apply is_digit_iff in H. congruence.
Qed.

Lemma read_two_iff s z r : read_two s = Some (z, r) <-> exists x, s = x ++ r /\ String.length x = 2 /\ digits x /\ z = decimal x.
Proof.
  split.
  - destruct s as [|a [|b s]]; try discriminate. cbn [read_two]. destruct (digit_value a) as [x|] eqn:Ea; [|discriminate].
    destruct (digit_value b) as [y|] eqn:Eb; [|discriminate]. intros E. injection E as <- <-. apply digit_value_iff in Ea as [Da ->], Eb as [Db ->].
    exists (String a (String b "")). split; [reflexivity|]. split; [reflexivity|]. split; [cbn; auto|]. rewrite decimal_fold. cbn [list_ascii_of_string fold_left]. unfold step. lia.
  - intros (x & -> & L & D & ->). destruct x as [|a [|b [|]]]; try discriminate L. destruct D as (Da & Db & _). cbn [append read_two].
    assert (Ea : digit_value a = Some (Z.of_nat (nat_of_ascii a) - 48)%Z) by (now apply digit_value_iff).
    assert (Eb : digit_value b = Some (Z.of_nat (nat_of_ascii b) - 48)%Z) by (now apply digit_value_iff).
    rewrite Ea, Eb. rewrite decimal_fold. cbn [list_ascii_of_string fold_left]. unfold step. do 2 f_equal; lia.
Qed.

Lemma read_char_iff c s r : read_char c s = Some r <-> s = String c r.
Proof.
  destruct s as [|d s]; cbn [read_char]; [split; discriminate|]. destruct (Ascii.eqb_spec c d) as [->|N]; split; try discriminate; intros E; injection E; congruence.
Qed.

Lemma decimal_app2 x y : String.length y = 2 -> decimal (x ++ y) = (decimal x * 100 + decimal y)%Z.
Proof.
  intros L. destruct y as [|a [|b [|]]]; try discriminate L. rewrite !decimal_fold, list_ascii_app, fold_left_app. cbn [list_ascii_of_string fold_left]. unfold step. lia.
Qed.

Lemma step_nonneg s : digits s -> forall a, (0 <= a)%Z -> (0 <= fold_left step (list_ascii_of_string s) a)%Z.
Proof.
  induction s as [|c s IH]; intros D a H; cbn [list_ascii_of_string fold_left]; [assumption|]. destruct D as [Dc D]. apply IH; auto. unfold step. lia.
Qed.

Lemma decimal_two x : String.length x = 2 -> digits x -> (0 <= decimal x <= 99)%Z.
Proof.
  intros L D. destruct x as [|a [|b [|]]]; try discriminate L. destruct D as (Da & Db & _). rewrite decimal_fold. cbn [list_ascii_of_string fold_left]. unfold step. lia.
Qed.

(** Fractions. *)
Fixpoint fraction_value (n : nat) (f : string) : Z :=
  match n, f with
  | S n, String c f => ((Z.of_nat (nat_of_ascii c) - 48) * 10 ^ Z.of_nat n + fraction_value n f)%Z
  | _, _ => 0%Z
  end.

Lemma step_shift s : forall a, fold_left step (list_ascii_of_string s) a = (a * 10 ^ Z.of_nat (String.length s) + fold_left step (list_ascii_of_string s) 0)%Z.
Proof.
  induction s as [|c s IH]; intros a; cbn [list_ascii_of_string fold_left String.length]; [cbn; lia|].
  rewrite IH, (IH (step 0 c)), Nat2Z.inj_succ, Z.pow_succ_r by lia. unfold step. ring.
Qed.

Fixpoint zeros (n : nat) : string := match n with 0 => "" | S n => String "0" (zeros n) end.

Lemma zeros_value n : fold_left step (list_ascii_of_string (zeros n)) 0%Z = 0%Z.
Proof. induction n as [|n IH]; [reflexivity|]. cbn [zeros list_ascii_of_string fold_left]. exact IH. Qed.

Lemma substring_zeros n m : n <= m -> substring 0 n (zeros m) = zeros n.
Proof. revert m. induction n as [|n IH]; intros m L; [now destruct m|]. destruct m as [|m]; [lia|]. cbn [zeros substring]. f_equal. apply IH. lia. Qed.

Lemma substring_length n m f : n <= m -> String.length (substring 0 n (f ++ zeros m)) = n.
Proof.
  revert f. induction n as [|n IH]; intros f L; [now destruct (f ++ zeros m)|]. destruct f as [|c f].
  - cbn [append]. rewrite substring_zeros by assumption. clear. induction n; cbn in *; congruence.
  - cbn [append substring String.length]. f_equal. apply IH. lia.
Qed.

Lemma fraction_decimal n m f : n <= m -> decimal (substring 0 n (f ++ zeros m)) = fraction_value n f.
Proof.
  revert f. induction n as [|n IH]; intros f L; [now destruct (f ++ zeros m)|]. destruct f as [|c f].
  - cbn [append fraction_value]. rewrite substring_zeros by assumption. apply zeros_value.
  - cbn [append substring fraction_value]. rewrite decimal_fold. cbn [list_ascii_of_string fold_left]. rewrite step_shift, <- decimal_fold, IH by lia.
    rewrite substring_length by lia. unfold step. lia.
Qed.

Lemma nanoseconds_value f : nanoseconds f = fraction_value 9 f.
Proof. unfold nanoseconds. change "000000000" with (zeros 9). now apply fraction_decimal. Qed.

Definition scale (n : nat) : Z := match n with 0 => 0%Z | S n => (10 ^ Z.of_nat n)%Z end.

Lemma scale_next n : (scale (S n) / 10)%Z = scale n.
Proof.
  destruct n as [|n]; [reflexivity|]. cbn [scale]. rewrite Nat2Z.inj_succ, Z.pow_succ_r by lia. rewrite Z.mul_comm. apply Z.div_mul. lia.
Qed.

(** The rest doesn't start with a digit. *)
Definition no_digit (s : string) : Prop := match s with "" => True | String c _ => ~ (48 <= nat_of_ascii c <= 57) end.

Lemma read_fraction_digits f r : digits f -> no_digit r -> forall n acc, read_fraction (scale n) acc (f ++ r) = ((acc + fraction_value n f)%Z, r).
Proof.
  intros D Nr. induction f as [|c f IH]; intros n acc.
  - cbn [append]. replace (acc + fraction_value n "")%Z with acc by (destruct n; cbn; lia). destruct r as [|c r]; [reflexivity|]. cbn [read_fraction].
    destruct (digit_value c) as [x|] eqn:E; [|reflexivity]. apply digit_value_iff in E as [E _]. cbn in Nr. tauto.
  - destruct D as [Dc D]. cbn [append read_fraction]. assert (E : digit_value c = Some (Z.of_nat (nat_of_ascii c) - 48)%Z) by (now apply digit_value_iff). rewrite E.
    destruct n as [|n].
    + change (scale 0 / 10)%Z with (scale 0). rewrite IH by assumption. cbn [scale fraction_value]. f_equal. lia.
    + rewrite scale_next, IH by assumption. cbn [fraction_value]. change (scale (S n)) with (10 ^ Z.of_nat n)%Z. f_equal. lia.
Qed.

Lemma split_digits s : exists f r, s = f ++ r /\ digits f /\ no_digit r.
Proof.
  induction s as [|c s (f & r & -> & D & N)]; [exists "", ""; cbn; auto|]. destruct (is_digit c) eqn:E.
  - exists (String c f), r. split; [reflexivity|]. split; [|assumption]. cbn. split; [now apply is_digit_iff|assumption].
  - exists "", (String c (f ++ r)). split; [reflexivity|]. split; [exact I|]. cbn. rewrite <- is_digit_iff. congruence.
Qed.

Definition fraction_in (fraction : string) (n : Z) : Prop :=
  (fraction = "" /\ n = 0%Z) \/ (exists f, fraction = String "." f /\ f <> "" /\ digits f /\ n = nanoseconds f).

Lemma nanos_read fraction n r : fraction_in fraction n -> no_digit r -> (forall r', r <> String "." r') -> read_nanos (fraction ++ r) = (n, r).
Proof.
  intros [[-> ->]|(f & -> & Ne & D & ->)] Nr Nd.
  - cbn [append]. destruct r as [|c r]; [reflexivity|]. apply (no_nanos _ c r eq_refl). intros ->. now apply (Nd r).
  - destruct f as [|c f]; [congruence|]. cbn [append]. unfold read_nanos. pose proof D as D0. destruct D0 as [Dc _].
    assert (E : digit_value c = Some (Z.of_nat (nat_of_ascii c) - 48)%Z) by (now apply digit_value_iff). rewrite E.
    change 100000000%Z with (scale 9). change (String c (f ++ r)) with (String c f ++ r). rewrite read_fraction_digits by assumption. now rewrite nanoseconds_value.
Qed.

Lemma nanos_inv s n r : read_nanos s = (n, r) -> (forall r', r <> String "." r') -> exists fraction, s = fraction ++ r /\ fraction_in fraction n.
Proof.
  intros E Nd. destruct s as [|d s]; [injection E as <- <-; exists ""; split; [reflexivity|left; auto]|].
  destruct (ascii_dec d ".") as [->|N].
  - unfold read_nanos in E. destruct s as [|c s]; [injection E as <- <-; now contradiction (Nd "")|].
    destruct (digit_value c) as [x|] eqn:Ec; [|injection E as <- <-; now contradiction (Nd (String c s))].
    destruct (split_digits (String c s)) as (f & r' & Es & D & Nr). rewrite Es in E. change 100000000%Z with (scale 9) in E.
    rewrite read_fraction_digits in E by assumption. injection E as <- <-. exists (String "." f). split; [now rewrite Es|]. right. exists f. split; [reflexivity|].
    split; [|split; [assumption|now rewrite nanoseconds_value]]. intros ->. cbn in Es. subst r'. cbn in Nr. apply digit_value_iff in Ec. tauto.
  - rewrite (no_nanos _ d s eq_refl N) in E. injection E as <- <-. exists "". split; [reflexivity|left; auto].
Qed.

Definition offset_in (offset : string) (z : Z) : Prop :=
  (offset = "Z" /\ z = 0%Z) \/
  (exists sign h m, offset = String sign (h ++ ":" ++ m) /\ within 2 0 24 h /\ within 2 0 60 m /\
     ((sign = "+"%char /\ z = (decimal h * 3600 + decimal m * 60)%Z) \/ (sign = "-"%char /\ z = (- (decimal h * 3600 + decimal m * 60))%Z))).

Lemma offset_read s z : read_offset s = Some z <-> offset_in s z.
Proof.
  destruct s as [|c r].
  { split; [discriminate|]. intros [[E _]|(sign & h & m & E & _)]; discriminate E. }
  destruct (string_dec (String c r) "Z") as [->|Nz].
  { split; [intros E; injection E as <-; left; auto|]. intros [[_ ->]|(sign & h & m & E & Hh & _)]; [reflexivity|].
    injection E as _ E. destruct Hh as (L & _). destruct h; discriminate. }
  assert (P : read_offset (String c r) = if Ascii.eqb c "+" || Ascii.eqb c "-" then
        match read_two r with
        | Some (h, r) => match read_char ":" r with
            | Some r => match read_two r with
                | Some (m, "") => if Z.leb h 24 && Z.leb m 60 then Some ((if Ascii.eqb c "-" then -1 else 1) * (h * 3600 + m * 60))%Z else None
                | _ => None end
            | None => None end
        | None => None end else None).
  { unfold read_offset. destruct r as [|c' r]; [|destruct c as [[] [] [] [] [] [] [] []]; reflexivity].
    destruct c as [[] [] [] [] [] [] [] []]; try reflexivity. congruence. }
  rewrite P. clear P. split.
  - destruct (Ascii.eqb c "+" || Ascii.eqb c "-") eqn:Ec; [|discriminate]. destruct (read_two r) as [[h r1]|] eqn:E1; [|discriminate].
    destruct (read_char ":" r1) as [r2|] eqn:E2; [|discriminate]. destruct (read_two r2) as [[m [|]]|] eqn:E3; try discriminate.
    destruct (Z.leb_spec h 24), (Z.leb_spec m 60); try discriminate. cbn [andb]. intros E. injection E as <-.
    apply read_two_iff in E1 as (x & -> & L1 & D1 & ->), E3 as (y & -> & L3 & D3 & ->). apply read_char_iff in E2 as ->. rewrite sapp_nil_r. right. exists c, x, y.
    split; [reflexivity|]. pose proof (decimal_two _ L1 D1). pose proof (decimal_two _ L3 D3). unfold within.
    repeat (split; [repeat split; auto; lia|]). apply orb_true_iff in Ec. rewrite !Ascii.eqb_eq in Ec. destruct Ec as [-> | ->]; [left|right]; (split; [reflexivity|]).
    + change (Ascii.eqb "+" "-") with false. cbv iota. lia.
    + change (Ascii.eqb "-" "-") with true. cbv iota. lia.
  - intros [[E _]|(sign & h & m & E & (L1 & D1 & R1) & (L3 & D3 & R3) & Hs)]; [congruence|].
    assert (c = sign) by congruence. assert (r = h ++ ":" ++ m) by congruence. subst c r.
    assert (Ec : (Ascii.eqb sign "+" || Ascii.eqb sign "-") = true) by (destruct Hs as [[-> _]|[-> _]]; reflexivity). rewrite Ec.
    assert (E1 : read_two (h ++ ":" ++ m) = Some (decimal h, ":" ++ m)) by (apply read_two_iff; exists h; auto). rewrite E1.
    change (":" ++ m) with (String ":" m). rewrite read_char_same.
    assert (E3 : read_two m = Some (decimal m, "")) by (apply read_two_iff; exists m; rewrite sapp_nil_r; auto). rewrite E3.
    assert (B : (Z.leb (decimal h) 24 && Z.leb (decimal m) 60) = true) by (apply andb_true_iff; rewrite !Z.leb_le; lia). rewrite B.
    destruct Hs as [[-> ->]|[-> ->]]; apply f_equal; [change (Ascii.eqb "+" "-") with false|change (Ascii.eqb "-" "-") with true]; cbv iota; lia.
Qed.

Lemma offset_head s z : offset_in s z -> no_digit s /\ forall r, s <> String "." r.
Proof.
  intros [[-> _]|(sign & h & m & -> & _ & _ & [[-> _]|[-> _]])]; (split; [vm_compute; lia|discriminate]).
Qed.

Lemma date_read s d : parse_rfc3339 s = Some d <-> date_in s d.
Proof.
  split.
  - unfold parse_rfc3339. intros E.
    destruct (read_two s) as [[y1 s1]|] eqn:E1; [|discriminate]. destruct (read_two s1) as [[y2 s2]|] eqn:E2; [|discriminate].
    destruct (read_char "-" s2) as [s3|] eqn:E3; [|discriminate]. destruct (read_two s3) as [[mo s4]|] eqn:E4; [|discriminate].
    destruct (read_char "-" s4) as [s5|] eqn:E5; [|discriminate]. destruct (read_two s5) as [[da s6]|] eqn:E6; [|discriminate].
    destruct (read_char "T" s6) as [s7|] eqn:E7; [|discriminate]. destruct (read_two s7) as [[ho s8]|] eqn:E8; [|discriminate].
    destruct (read_char ":" s8) as [s9|] eqn:E9; [|discriminate]. destruct (read_two s9) as [[mi s10]|] eqn:E10; [|discriminate].
    destruct (read_char ":" s10) as [s11|] eqn:E11; [|discriminate]. destruct (read_two s11) as [[se s12]|] eqn:E12; [|discriminate].
    destruct (read_nanos s12) as [na s13] eqn:E13. destruct (read_offset s13) as [off|] eqn:E14; [|discriminate]. cbv zeta in E.
    destruct (_ && _) eqn:B in E; [|discriminate]. injection E as <-. rewrite !andb_true_iff, !Z.leb_le, !Z.ltb_lt in B.
    apply offset_read in E14. destruct (offset_head _ _ E14) as [Nd Np]. apply nanos_inv in E13 as (fr & -> & Fr); [|assumption].
    apply read_char_iff in E3 as ->, E5 as ->, E7 as ->, E9 as ->, E11 as ->.
    apply read_two_iff in E1 as (a1 & -> & L1 & D1 & ->), E2 as (a2 & -> & L2 & D2 & ->), E4 as (a3 & -> & L3 & D3 & ->), E6 as (a4 & -> & L4 & D4 & ->),
      E8 as (a5 & -> & L5 & D5 & ->), E10 as (a6 & -> & L6 & D6 & ->), E12 as (a7 & -> & L7 & D7 & ->).
    pose proof (decimal_two _ L1 D1). pose proof (decimal_two _ L2 D2). pose proof (decimal_two _ L5 D5). pose proof (decimal_two _ L6 D6). pose proof (decimal_two _ L7 D7).
    exists (a1 ++ a2), a3, a4, a5, a6, a7, fr, s13. rewrite <- sapp_assoc, decimal_app2 by assumption. cbn [d_year d_month d_day d_hour d_minute d_second d_nano d_offset].
    split; [reflexivity|]. split; [split; [rewrite sapp_length, L1, L2; reflexivity|split; [now apply digits_app|rewrite decimal_app2 by assumption; lia]]|].
    repeat (split; [split; [assumption|split; [assumption|tauto || lia]]|]). repeat (split; [reflexivity|]). split; assumption.
  - intros (year & month & day & hour & minute & second & fraction & offset & -> & Hy & Hmo & Hd & Hh & Hmi & Hs & Ey & Emo & Ed & Eh & Emi & Es & Hf & Ho).
    change (fraction_in fraction (d_nano d)) in Hf. change (offset_in offset (d_offset d)) in Ho. destruct (offset_head _ _ Ho) as [Nd Np].
    destruct Hy as (Ly & Dy & Ry). destruct year as [|c1 [|c2 [|c3 [|c4 [|]]]]]; try discriminate Ly.
    assert (Y : String c1 (String c2 (String c3 (String c4 ""))) = String c1 (String c2 "") ++ String c3 (String c4 "")) by reflexivity. rewrite Y in *. clear Y.
    destruct Dy as (Q1 & Q2 & Q3 & Q4 & _).
    assert (D1 : digits (String c1 (String c2 ""))) by (cbn; auto). assert (D2 : digits (String c3 (String c4 ""))) by (cbn; auto).
    assert (L1 : String.length (String c1 (String c2 "")) = 2) by reflexivity. assert (L2 : String.length (String c3 (String c4 "")) = 2) by reflexivity.
    set (a1 := String c1 (String c2 "")) in *. set (a2 := String c3 (String c4 "")) in *. clearbody a1 a2.
    rewrite (decimal_app2 a1 a2 L2) in Ry, Ey, Hd. rewrite (sapp_assoc a1 a2).
    assert (R : forall x r, String.length x = 2 -> digits x -> read_two (x ++ r) = Some (decimal x, r)) by (intros x r L D; apply read_two_iff; exists x; auto).
    destruct Hmo as (Lmo & Dmo & Rmo), Hd as (Ld & Dd & Rd), Hh as (Lh & Dh & Rh), Hmi as (Lmi & Dmi & Rmi), Hs as (Ls & Ds & Rs).
    unfold parse_rfc3339. rewrite R by assumption. rewrite R by assumption. cbn [append]. change (String "-" (month ++ String "-" (day ++ String "T" (hour ++ String ":" (minute ++ String ":" (second ++ fraction ++ offset))))))
      with (String "-" (month ++ String "-" (day ++ String "T" (hour ++ String ":" (minute ++ String ":" (second ++ (fraction ++ offset))))))).
    rewrite read_char_same, R by assumption. rewrite read_char_same, R by assumption. rewrite read_char_same, R by assumption.
    rewrite read_char_same, R by assumption. rewrite read_char_same, R by assumption. rewrite (nanos_read _ _ _ Hf Nd Np).
    rewrite (proj2 (offset_read _ _) Ho). cbv zeta.
    assert (B : (Z.leb 1 (decimal month) && Z.leb (decimal month) 12 && Z.leb 1 (decimal day) && Z.leb (decimal day) (days_in (decimal a1 * 100 + decimal a2) (decimal month)) &&
      Z.ltb (decimal hour) 24 && Z.ltb (decimal minute) 60 && Z.ltb (decimal second) 60) = true) by (rewrite !andb_true_iff, !Z.leb_le, !Z.ltb_lt; lia).
    rewrite B. f_equal. destruct d. cbn in *. subst. reflexivity.
Qed.
