(** Model of the constructors of [DateTime_t] (src/frpcdatetime.cc) and of the functions of [Pool_t] making dates
    (src/frpcpool.cc 138-232).  [DateTime_t(const struct tm &)] and [DateTime_t()] are private and used by nobody. *)
From Verif Require Import Base Value Text M_Base64 M_Iso M_Marshal M_BinUnmarshal M_TreeBuilder.

(** [struct tm] (C library), as far as it is used. *)
Record tm : Type := mkTm { tm_year : Z; tm_mon : Z; tm_mday : Z; tm_hour : Z; tm_min : Z; tm_sec : Z; tm_wday : Z; tm_isdst : Z }.

(** The C library: what [localtime_r] leaves in a zeroed structure, what [mktime] returns and leaves in its argument, and
    the variable [timezone]. *)
Record host : Type := mkHost { localtime : Z -> tm; mktime : tm -> Z * tm; timezone : Z }.

(** The structure given to [mktime] (frpcdatetime.cc 52-59, 73-80, 165-172). *)
Definition tm_of_fields (y m d h mi s : Z) : tm := mkTm (y - 1900) (m - 1) d h mi s 0 (-1).

(** [mktime], then [localtime_r] for the day of the week (frpcdatetime.cc 59-65): what [make_datetime] uses. *)
Definition host_mktime (c : host) : mktime_t :=
  fun y m d h mi s => let t := fst (mktime c (tm_of_fields y m d h mi s)) in (t, tm_wday (localtime c t)).

(** The zone (frpcdatetime.cc 90, 110; without HAVE_ALTZONE). *)
Definition zone_of (c : host) (l : tm) : Z := s32 (if 0 <? tm_isdst l then timezone c - 3600 else timezone c).

(** The fields taken from a [struct tm] (frpcdatetime.cc 98-104, 119-125); [tm_year + 1900] is an [int]. *)
Definition of_tm (l : tm) (unix tz : Z) : res datetime :=
  if 2147483647 <? tm_year l + 1900 then UB
  else Ok (mkDT (s16 (tm_year l + 1900)) (s8 (tm_mon l + 1)) (s8 (tm_mday l)) (s8 (tm_hour l)) (s8 (tm_min l)) (s8 (tm_sec l)) (s8 (tm_wday l))
             unix tz).

(** [Pool_t::LocalTime(timestamp)] (frpcpool.cc 178-184, frpcdatetime.cc 94-112). *)
Definition local_time_at (c : host) (t : Z) : res datetime := let l := localtime c t in of_tm l t (zone_of c l).

(** [Pool_t::DateTime(timestamp, timeZone)] (frpcpool.cc 150-156, frpcdatetime.cc 114-126) and [Pool_t::UTCTime(timestamp)]
    (frpcpool.cc 206-212). *)
Definition date_in_zone (c : host) (t tz : Z) : res datetime := of_tm (localtime c t) t tz.
Definition utc_time_at (c : host) (t : Z) : res datetime := date_in_zone c t 0.

(** [Pool_t::LocalTime(year, ...)] (frpcpool.cc 167-176, frpcdatetime.cc 69-92): the zone is taken from what [mktime] left. *)
Definition local_time (c : host) (y m d h mi s : Z) : datetime :=
  let '(t, l) := mktime c (tm_of_fields y m d h mi s) in
  mkDT y m d h mi s (s8 (tm_wday (localtime c t))) t (zone_of c l).

(** [Pool_t::UTCTime(year, ...)] (frpcpool.cc 194-204); [val] is the validation policy as in [make_datetime]. *)
Definition utc_time (val : option mktime_t) (y m d h mi s : Z) : datetime := make_datetime val (mkDT y m d h mi s (-1) (-1) 0).

(** [Pool_t::ForceUTCTime] (frpcpool.cc 214-223, frpcdatetime.cc 181-186). *)
Definition force_utc_time (y m d h mi s unix : Z) : datetime := mkDT y m d h mi s 0 unix 0.

(** [Pool_t::DateTime(isoFormat)] (frpcpool.cc 158-165, frpcdatetime.cc 160-179). *)
Definition date_of_iso (c : host) (text : bytes) : res datetime :=
  bind (parse_iso text) (fun d =>
    let '(t, w) := host_mktime c (dt_year d) (dt_month d) (dt_day d) (dt_hour d) (dt_min d) (dt_sec d) in
    Ok (mkDT (dt_year d) (dt_month d) (dt_day d) (dt_hour d) (dt_min d) (dt_sec d) (s8 w) t (dt_tz d))).
