(** What the ISO 8601 text of a date-time carries. *)
From Verif Require Import Base Value.

(** Date-times whose fields fit the columns of the text; the zone offset is a whole number of minutes
    below one hundred hours. *)
Definition iso_range (d : datetime) : Prop :=
  0 <= dt_year d <= 9999 /\ 0 <= dt_month d <= 99 /\ 0 <= dt_day d <= 99 /\ 0 <= dt_hour d <= 99
  /\ 0 <= dt_min d <= 99 /\ 0 <= dt_sec d <= 99 /\ (exists m, dt_tz d = m * 60 /\ - 6000 < m < 6000).

(** The week day and the unix time are not part of the text. *)
Definition iso_fields (d : datetime) : datetime :=
  mkDT (dt_year d) (dt_month d) (dt_day d) (dt_hour d) (dt_min d) (dt_sec d) (-1) (-1) (dt_tz d).
