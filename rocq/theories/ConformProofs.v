(** Proofs about the texts of numbers and dates. *)
From Coq Require Import Ascii String Bool Arith ZArith NArith Lia DecimalString DecimalZ DecimalFacts Decimal List.
From Verif Require Import ConformSpec.
From Verif Require Import GoStrings GoStringsProofs GoMap GoTimeModel GoTimeSpec GoTimeProofs ReporterModel JsonModel JsonSpec JsonProofs3.
Import ListNotations.
Local Open Scope string_scope.

Definition step (a : Z) (c : ascii) : Z := (a * 10 + (Z.of_nat (nat_of_ascii c) - 48))%Z.
Lemma fold_uint u : forall p, fold_left step (list_ascii_of_string (NilEmpty.string_of_uint u)) (Zpos p) = Zpos (Pos.of_uint_acc u p).
Proof.
  induction u as [|u IH|u IH|u IH|u IH|u IH|u IH|u IH|u IH|u IH|u IH]; intros p; [reflexivity|..];
  cbn [NilEmpty.string_of_uint list_ascii_of_string fold_left Pos.of_uint_acc]; rewrite <- IH; f_equal; unfold step; cbn [nat_of_ascii];
  match goal with |- context [Z.of_nat ?n] => let m := eval vm_compute in (Z.of_nat n) in change (Z.of_nat n) with m end; lia.
Qed.
Lemma decimal_uint u : decimal (NilEmpty.string_of_uint u) = Z.of_uint u.
Proof.
  unfold decimal, Z.of_uint. change (fun a c => (a * 10 + (Z.of_nat (nat_of_ascii c) - 48))%Z) with step.
  induction u as [|u IH|u IH|u IH|u IH|u IH|u IH|u IH|u IH|u IH|u IH]; [reflexivity|exact IH|..];
  cbn [NilEmpty.string_of_uint list_ascii_of_string fold_left Pos.of_uint Z.of_N]; rewrite <- fold_uint; f_equal.
Qed.
Lemma decimal_zero u : decimal (NilZero.string_of_uint u) = Z.of_uint u.
Proof. destruct u; [reflexivity|apply decimal_uint..]. Qed.
Lemma digits_zero u : digits (NilZero.string_of_uint u) /\ NilZero.string_of_uint u <> "".
Proof.
  split.
  - destruct u; [|apply digits_uint..]. cbn [NilZero.string_of_uint digits]. split; [vm_compute; lia|exact I].
  - destruct u; discriminate.
Qed.
Lemma itoa_text z : integer_text (itoa_z z) z.
Proof.
  unfold itoa_z. pose proof (DecimalZ.of_to z) as E. destruct (Z.to_int z) as [u|u]; cbn [NilZero.string_of_int Z.of_int] in *; destruct (digits_zero u) as [D N];
  exists (NilZero.string_of_uint u); (split; [exact N|]); (split; [exact D|]).
  - left. split; [reflexivity|]. now rewrite decimal_zero.
  - right. split; [reflexivity|]. rewrite decimal_zero. now symmetry.
Qed.

(** Dates. *)
Lemma digit_char z : (0 <= z <= 9)%Z -> (48 <= nat_of_ascii (digit z) <= 57) /\ (Z.of_nat (nat_of_ascii (digit z)) - 48 = z)%Z.
Proof. intros H. apply digit_cases in H. repeat destruct H as [->|H]; try (vm_compute; intuition congruence); try (split; [vm_compute; lia|reflexivity]). subst. split; [vm_compute; lia|reflexivity]. Qed.
Lemma two_parts z : (0 <= z <= 99)%Z -> (0 <= z / 10 mod 10 <= 9)%Z /\ (0 <= z mod 10 <= 9)%Z /\ (z / 10 mod 10 * 10 + z mod 10 = z)%Z.
Proof.
  intros H. assert (0 <= z / 10 mod 10 <= 9)%Z by (pose proof (Z.mod_pos_bound (z / 10) 10); lia).
  assert (0 <= z mod 10 <= 9)%Z by (pose proof (Z.mod_pos_bound z 10); lia). repeat split; try lia.
  rewrite (Z.mod_small (z / 10)) by (Z.to_euclidean_division_equations; lia). pose proof (Z.div_mod z 10). lia.
Qed.
Lemma two_step z a : (0 <= z <= 99)%Z -> fold_left step (list_ascii_of_string (two_digits z)) a = (a * 100 + z)%Z.
Proof.
  intros H. destruct (two_parts z H) as (A & B & C). unfold two_digits. cbn [list_ascii_of_string fold_left]. unfold step.
  rewrite (proj2 (digit_char _ A)), (proj2 (digit_char _ B)). lia.
Qed.
Lemma two_digits_digits z : (0 <= z <= 99)%Z -> digits (two_digits z).
Proof. intros H. destruct (two_parts z H) as (A & B & _). unfold two_digits. cbn [digits]. split; [apply digit_char, A|]. split; [apply digit_char, B|exact I]. Qed.
Lemma two_value z : (0 <= z <= 99)%Z -> decimal (two_digits z) = z.
Proof. intros H. unfold decimal. change (fun a c => (a * 10 + (Z.of_nat (nat_of_ascii c) - 48))%Z) with step. rewrite two_step by assumption. lia. Qed.
Lemma two_within z lo hi : (0 <= z <= 99)%Z -> (lo <= z <= hi)%Z -> within 2 lo hi (two_digits z).
Proof. intros H L. split; [reflexivity|]. split; [now apply two_digits_digits|]. now rewrite two_value. Qed.
Lemma list_ascii_app a b : list_ascii_of_string (a ++ b) = (list_ascii_of_string a ++ list_ascii_of_string b)%list.
Proof. induction a; cbn; [reflexivity|]. now f_equal. Qed.
Lemma digits_app a b : digits a -> digits b -> digits (a ++ b).
Proof. induction a; cbn; [auto|]. intros [H K] D. split; auto. Qed.
Lemma four_value z : (0 <= z <= 9999)%Z -> decimal (four_digits z) = z.
Proof.
  intros H. unfold decimal, four_digits. change (fun a c => (a * 10 + (Z.of_nat (nat_of_ascii c) - 48))%Z) with step. rewrite list_ascii_app, fold_left_app.
  rewrite !two_step by (Z.to_euclidean_division_equations; lia). Z.to_euclidean_division_equations; lia.
Qed.
Lemma four_within z : (0 <= z <= 9999)%Z -> within 4 0 9999 (four_digits z).
Proof.
  intros H. split; [reflexivity|]. split; [|now rewrite four_value]. apply digits_app; apply two_digits_digits; Z.to_euclidean_division_equations; lia.
Qed.
Lemma format_date_time d : calendar_date d -> date_time (format_rfc3339 d).
Proof.
  intros (Y & M & D & H & Mi & S & m & O & B). unfold date_time, format_rfc3339. pose proof (days_bound (d_year d) (d_month d)).
  do 7 eexists. split; [reflexivity|]. split; [now apply four_within|]. split; [apply two_within; lia|]. split.
  { rewrite four_value, two_value by lia. apply two_within; lia. }
  split; [apply two_within; lia|]. split; [apply two_within; lia|]. split; [apply two_within; lia|].
  destruct (Z.eqb_spec (d_offset d) 0) as [|N]; [now left|right]. rewrite O. rewrite Z.quot_mul by lia.
  do 3 eexists. split; [|split; [reflexivity|]].
  - destruct (Z.ltb m 0); auto.
  - assert (0 <= Z.abs m / 60 <= 23)%Z by (Z.to_euclidean_division_equations; lia). assert (0 <= Z.abs m mod 60 <= 59)%Z by (Z.to_euclidean_division_equations; lia).
    split; apply two_within; lia.
Qed.
