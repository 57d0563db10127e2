(** Vocabulary used to state the properties of dates. *)
From Coq Require Import ZArith.
From Verif Require Import GoTimeModel.

(** Dates that can be written without loss: years of four digits, whole seconds and offsets of whole
    minutes of less than a day. *)
Definition plain_date (d : date) : Prop :=
  (0 <= d_year d <= 9999)%Z /\ (1 <= d_month d <= 12)%Z /\ (1 <= d_day d <= days_in (d_year d) (d_month d))%Z /\
  (0 <= d_hour d < 24)%Z /\ (0 <= d_minute d < 60)%Z /\ (0 <= d_second d < 60)%Z /\ d_nano d = 0%Z /\
  (exists m, d_offset d = (m * 60)%Z /\ (-1440 < m < 1440)%Z).
