(** Dates and the moments they stand for. *)
From Verif Require Import Base Value M_DateTime S_Calendar.

(** The fields of a date, read off a calendar and a clock. *)
Definition valid_date (d : datetime) : Prop := valid (dt_year d) (dt_month d) (dt_day d) (dt_hour d) (dt_min d) (dt_sec d).
Definition shown (d : datetime) : Z := seconds (dt_year d) (dt_month d) (dt_day d) (dt_hour d) (dt_min d) (dt_sec d).

(** The moment the fields and the zone of a date stand for: the zone is the number of seconds the clock is behind UTC (as its
    text says: "+0100" for -3600). *)
Definition moment (d : datetime) : Z := shown d + dt_tz d.

(** The times the C library can break down. *)
Definition usual (t : Z) : Prop := Z.abs t < 2 ^ 55.

(** The C library follows the calendar, at time [t] the local clock being [west t] seconds behind UTC, [summer t] telling
    summer time; [mktime] finds a moment at which the clock shows given fields, if there is one and it is not told whether
    that is summer time. *)
Definition fields_at (l : tm) (x : Z) : Prop :=
  valid (tm_year l + 1900) (tm_mon l + 1) (tm_mday l) (tm_hour l) (tm_min l) (tm_sec l)
  /\ seconds (tm_year l + 1900) (tm_mon l + 1) (tm_mday l) (tm_hour l) (tm_min l) (tm_sec l) = x
  /\ tm_wday l = week_day (x / 86400).
Record follows (c : host) (west : Z -> Z) (summer : Z -> bool) : Prop := {
  clock_shows : forall t, usual t -> fields_at (localtime c t) (t - west t) /\ (0 < tm_isdst (localtime c t) <-> summer t = true);
  clock_found : forall l t, tm_isdst l < 0 ->
    valid (tm_year l + 1900) (tm_mon l + 1) (tm_mday l) (tm_hour l) (tm_min l) (tm_sec l) -> usual t ->
    seconds (tm_year l + 1900) (tm_mon l + 1) (tm_mday l) (tm_hour l) (tm_min l) (tm_sec l) = t - west t ->
    exists u, usual u /\ u - west u = t - west t /\ mktime c l = (u, localtime c u)
}.

(** Summer time is one hour ahead of a standard time that never changes (what [timezone] supposes). *)
Definition standard (c : host) (west : Z -> Z) (summer : Z -> bool) : Prop :=
  (forall t, west t = timezone c - (if summer t then 3600 else 0)) /\ - 100000 < timezone c < 100000.

(** The clock shows what it shows at [t] at no other time. *)
Definition once (west : Z -> Z) (t : Z) : Prop := forall u, usual u -> u - west u = t - west t -> u = t.
