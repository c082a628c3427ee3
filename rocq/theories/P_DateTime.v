(** C72, C73: the moments dates stand for. *)
From Coq Require Import Lia.
From Verif Require Import Base Value Text M_Base64 M_Iso M_Marshal M_BinUnmarshal M_TreeBuilder M_Dump M_DateTime S_Events S_Value S_Wire S_Calendar S_DateTime S_Iso
  L_Calendar L_DateTime L_Iso L_RoundTrip L_Message L_Send P_RoundTrip.

(** * C72 *)

(** [LocalTime(t)]: the fields are a date of the calendar, what the local clock shows; with the zone they stand for [t], which
    is also the unix time; the day of the week is right. *)
Theorem C72_local_time : forall c west summer t, follows c west summer -> standard c west summer -> usual t ->
  in_s16 (tm_year (localtime c t) + 1900) ->
  exists d, local_time_at c t = Ok d /\ valid_date d /\ shown d = t - west t /\ moment d = t /\ dt_unix d = t
    /\ dt_wday d = week_day ((t - west t) / 86400).
Proof.
  intros c west summer t F S U Y. destruct (clock_shows _ _ _ F t U) as (L & _). unfold local_time_at.
  destruct (of_tm_ok _ _ t (zone_of c (localtime c t)) L Y) as (d & E & A & Z & V & SH & W & _). exists d.
  split; [exact E|]. split; [exact V|]. split; [exact SH|]. split; [|split; [exact A|exact W]].
  unfold moment. rewrite SH, Z, (zone_std _ _ _ _ F S U). lia.
Qed.
Print Assumptions C72_local_time.

(** [LocalTime(year, ...)] of fields the local clock shows at some moment. *)
Theorem C72_local_fields : forall c west summer y m d h mi s t, follows c west summer -> standard c west summer -> usual t ->
  valid y m d h mi s -> seconds y m d h mi s = t - west t ->
  let x := local_time c y m d h mi s in
  (dt_year x, dt_month x, dt_day x, dt_hour x, dt_min x, dt_sec x) = (y, m, d, h, mi, s) /\ moment x = dt_unix x
  /\ dt_unix x - west (dt_unix x) = t - west t /\ (once west t -> dt_unix x = t) /\ dt_wday x = week_day (day_number y m d).
Proof.
  intros c west summer y m d h mi s t F S U V E. destruct (found_fields _ _ _ _ _ _ _ _ _ _ F V U E) as (u & UU & SU & M).
  unfold local_time. rewrite M. cbv zeta. unfold moment, shown. cbn [dt_year dt_month dt_day dt_hour dt_min dt_sec dt_unix dt_wday dt_tz].
  split; [reflexivity|]. rewrite (zone_std _ _ _ _ F S UU). split; [lia|]. split; [lia|]. split; [intros O; apply O; [exact UU|lia]|].
  destruct (clock_shows _ _ _ F u UU) as ((_ & _ & W) & _). rewrite W, small8 by (pose proof (week_day_range ((u - west u) / 86400)); lia).
  f_equal. rewrite <- SU. unfold seconds. destruct V as (_ & H & MI & SS). symmetry. apply (Z.div_unique _ 86400 _ (h * 3600 + mi * 60 + s)); lia.
Qed.
Print Assumptions C72_local_fields.

(** The text of a date, read again on the same host, gives the same date. *)
Theorem C72_text_round_trip : forall c west summer t d, follows c west summer -> standard c west summer -> usual t ->
  in_s16 (tm_year (localtime c t) + 1900) -> once west t -> local_time_at c t = Ok d -> iso_range d ->
  date_of_iso c (iso_text (dt_year d) (dt_month d) (dt_day d) (dt_hour d) (dt_min d) (dt_sec d) (dt_tz d)) = Ok d.
Proof.
  intros c west summer t d F S U Y O E R. destruct (C72_local_time c west summer t F S U Y) as (d' & E' & V & SH & M & A & W).
  rewrite E in E'. injection E' as <-. unfold date_of_iso. pose proof (parse_iso_text d R) as P. rewrite P. cbn [bind iso_fields dt_year dt_month dt_day dt_hour dt_min dt_sec dt_tz].
  destruct (mktime_found _ _ _ _ _ F V U SH) as (u & UU & SU & _ & H). rewrite H. assert (u = t) by (apply O; assumption). subst u.
  rewrite small8 by (pose proof (week_day_range (shown d / 86400)); lia). rewrite SH, <- W, <- A. destruct d; reflexivity.
Qed.
Print Assumptions C72_text_round_trip.

(** Refuted: [UTCTime(t)] stands for another moment wherever the clock does not show UTC, for it holds what the local clock
    shows, with the zone of UTC. *)
Theorem C72_utc_time_refuted : forall c west summer t, follows c west summer -> usual t -> in_s16 (tm_year (localtime c t) + 1900) -> west t <> 0 ->
  exists d, utc_time_at c t = Ok d /\ dt_unix d = t /\ moment d <> t.
Proof.
  intros c west summer t F U Y N. destruct (clock_shows _ _ _ F t U) as (L & _). unfold utc_time_at, date_in_zone.
  destruct (of_tm_ok _ _ t 0 L Y) as (d & E & A & Z & V & SH & W & _). exists d. split; [exact E|]. split; [exact A|]. unfold moment. lia.
Qed.
Print Assumptions C72_utc_time_refuted.

(** ... and [UTCTime(year, ...)] has the unix time of the same fields in local time. *)
Theorem C72_utc_fields_refuted : forall c west summer y m d h mi s t, follows c west summer -> usual t -> valid y m d h mi s ->
  seconds y m d h mi s = t - west t -> (forall u, usual u -> west u <> 0) ->
  let x := utc_time (Some (host_mktime c)) y m d h mi s in moment x = seconds y m d h mi s /\ dt_unix x <> moment x.
Proof.
  intros c west summer y m d h mi s t F U V E N. set (x0 := mkDT y m d h mi s (-1) (-1) 0).
  destruct (mktime_found c west summer x0 t F V U E) as (u & UU & SU & _ & H). cbv zeta. unfold utc_time, make_datetime.
  change (mkDT y m d h mi s (-1) (-1) 0) with x0. rewrite H. unfold moment, shown. cbn [x0 dt_year dt_month dt_day dt_hour dt_min dt_sec dt_unix dt_tz].
  specialize (N u UU). split; lia.
Qed.
Print Assumptions C72_utc_fields_refuted.

(** Refuted: the unix time of a date read from a text does not regard the zone in the text. *)
Theorem C72_text_zone_refuted : forall c west summer d t, follows c west summer -> iso_range d -> valid_date d -> usual t -> shown d = t - west t ->
  (forall u, usual u -> u - west u = t - west t -> dt_tz d <> west u) ->
  exists x, date_of_iso c (iso_text (dt_year d) (dt_month d) (dt_day d) (dt_hour d) (dt_min d) (dt_sec d) (dt_tz d)) = Ok x
    /\ moment x = moment d /\ dt_unix x <> moment x.
Proof.
  intros c west summer d t F R V U SH N. unfold date_of_iso. pose proof (parse_iso_text d R) as P. rewrite P. cbn [bind iso_fields dt_year dt_month dt_day dt_hour dt_min dt_sec dt_tz].
  destruct (mktime_found _ _ _ _ _ F V U SH) as (u & UU & SU & _ & H). rewrite H. eexists. split; [reflexivity|].
  specialize (N u UU SU). unfold moment, shown. cbn [dt_year dt_month dt_day dt_hour dt_min dt_sec dt_unix dt_tz]. split; [reflexivity|]. unfold shown in SH. lia.
Qed.
Print Assumptions C72_text_zone_refuted.

(** Refuted: the zone is documented as positive in the east; it is the opposite. *)
Theorem C72_zone_sign_refuted : forall c west summer t d, follows c west summer -> standard c west summer -> usual t ->
  local_time_at c t = Ok d -> west t <> 0 -> dt_tz d <> - west t.
Proof.
  intros c west summer t d F S U E N. unfold local_time_at, of_tm in E. destruct (2147483647 <? _); [discriminate|]. injection E as <-. cbn [dt_tz].
  rewrite (zone_std _ _ _ _ F S U). lia.
Qed.
Print Assumptions C72_zone_sign_refuted.

(** Refuted: years are 16 bits wide. *)
Theorem C72_year_refuted : forall c t d, ~ in_s16 (tm_year (localtime c t) + 1900) -> local_time_at c t = Ok d -> dt_year d <> tm_year (localtime c t) + 1900.
Proof.
  intros c t d N E. unfold local_time_at, of_tm in E. destruct (2147483647 <? _); [discriminate|]. injection E as <-. cbn [dt_year].
  pose proof (s16_range (tm_year (localtime c t) + 1900)) as R. intros X. apply N. rewrite <- X. exact R.
Qed.
Print Assumptions C72_year_refuted.

(** Central European Time in 2024: summer time from March 31st to October 27th. *)
Definition prague : host := zone_host (-3600) 1711846800 1729990800.
Definition prague_west := zwest (-3600) 1711846800 1729990800.
Definition prague_summer := zsummer 1711846800 1729990800.
Lemma prague_follows : follows prague prague_west prague_summer.
Proof. apply zone_follows; [lia| |]; vm_compute; reflexivity. Qed.
Lemma prague_standard : standard prague prague_west prague_summer.
Proof. apply zone_standard. lia. Qed.
Example C72_sample : follows prague prague_west prague_summer /\ standard prague prague_west prague_summer
  /\ local_time_at prague 1720000000 = Ok (mkDT 2024 7 3 11 46 40 3 1720000000 (-7200))
  /\ iso_range (mkDT 2024 7 3 11 46 40 3 1720000000 (-7200)) /\ once prague_west 1720000000
  /\ local_time prague 2024 7 3 11 46 40 = mkDT 2024 7 3 11 46 40 3 1720000000 (-7200)
  /\ local_time_at prague 1700000000 = Ok (mkDT 2023 11 14 23 13 20 2 1700000000 (-3600))
  /\ utc_time_at prague 1720000000 = Ok (mkDT 2024 7 3 11 46 40 3 1720000000 0)
  /\ date_of_iso prague (str "20240703T09:46:40Z") = Ok (mkDT 2024 7 3 9 46 40 3 1719992800 0).
Proof.
  split; [exact prague_follows|]. split; [exact prague_standard|]. split; [vm_compute; reflexivity|].
  split; [unfold iso_range; cbn; repeat split; try lia; exists (-120); lia|].
  split; [|vm_compute; repeat split; reflexivity].
  intros u _. unfold prague_west, zwest, zsummer. destruct ((1711846800 <=? u) && (u <? 1729990800))%bool eqn:E; change ((1711846800 <=? 1720000000) && (1720000000 <? 1729990800))%bool with true; cbv iota; lia.
Qed.
(** The year 40000. *)
Example C72_year_sample : exists t, usual t /\ ~ in_s16 (tm_year (localtime prague t) + 1900).
Proof.
  exists (seconds 40000 1 1 12 0 0 - 3600). assert (U: usual (seconds 40000 1 1 12 0 0 - 3600)) by (vm_compute; reflexivity). split; [exact U|].
  destruct (clock_shows _ _ _ prague_follows _ U) as ((V & S & _) & _).
  assert (W: prague_west (seconds 40000 1 1 12 0 0 - 3600) = -3600) by (vm_compute; reflexivity). rewrite W in S.
  assert (V': valid 40000 1 1 12 0 0) by (vm_compute; repeat split; discriminate).
  destruct (seconds_unique _ _ _ _ _ _ _ _ _ _ _ _ V V') as (Y & _); [lia|]. rewrite Y. unfold in_s16. change (2 ^ 15) with 32768. lia.
Qed.

(** * C73 *)

(** Sent in a response and received where the clock shows the same, a date made from a time is received as it was sent,
    with validation of dates or without. *)
Theorem C73_same_zone_partial : forall a b west summer val req ver t d, follows a west summer -> standard a west summer -> follows b west summer ->
  usual t -> in_s16 (tm_year (localtime a t) + 1900) -> once west t -> local_time_at a t = Ok d ->
  modern ver -> wf ver (VDateTime d) -> accepts req T_METHOD_RESPONSE -> val = None \/ val = Some (host_mktime b) ->
  exists wire, sent ver (response_calls (VDateTime d)) = Ok wire /\
  forall pieces, concat pieces = wire -> received_value val req pieces = Ok (VDateTime d).
Proof.
  intros a b west summer val req ver t d FA SA FB U Y O E M WF A VAL.
  destruct (C01_response_round_trip val req ver (VDateTime d) M WF A) as (wire & S & R). exists wire. split; [exact S|].
  intros pieces P. rewrite (R pieces P). f_equal. unfold plain. f_equal. destruct VAL as [-> | ->]; [reflexivity|].
  destruct (C72_local_time a west summer t FA SA U Y) as (d' & E' & V & SH & MO & AU & W). rewrite E in E'. injection E' as <-.
  unfold make_datetime. destruct (mktime_found _ _ _ _ _ FB V U SH) as (u & UU & SU & _ & H). rewrite H. assert (u = t) by (apply O; assumption). subst u.
  rewrite small8 by (pose proof (week_day_range (shown d / 86400)); lia). rewrite SH, <- W, <- AU. destruct d; reflexivity.
Qed.
Print Assumptions C73_same_zone_partial.

(** Refuted: where the clock shows something else the receiver, which validates dates unless told otherwise, gives the
    date another unix time. *)
Theorem C73_other_zone_refuted : forall a b west summer west' summer' req ver t t' d, follows a west summer -> standard a west summer ->
  follows b west' summer' -> usual t -> in_s16 (tm_year (localtime a t) + 1900) -> local_time_at a t = Ok d ->
  west t <> west' t -> usual t' -> t' - west' t' = t - west t ->
  modern ver -> wf ver (VDateTime d) -> accepts req T_METHOD_RESPONSE ->
  exists wire x, sent ver (response_calls (VDateTime d)) = Ok wire /\ dt_unix d = t /\ moment x = t /\ dt_unix x <> t /\
  forall pieces, concat pieces = wire -> received_value (Some (host_mktime b)) req pieces = Ok (VDateTime x).
Proof.
  intros a b west summer west' summer' req ver t t' d FA SA FB U Y E N U' T' M WF A.
  destruct (C01_response_round_trip (Some (host_mktime b)) req ver (VDateTime d) M WF A) as (wire & S & R).
  destruct (C72_local_time a west summer t FA SA U Y) as (d' & E' & V & SH & MO & AU & W). rewrite E in E'. injection E' as <-.
  exists wire, (make_datetime (Some (host_mktime b)) d). split; [exact S|]. split; [exact AU|].
  destruct (mktime_found b west' summer' d t' FB V U' ltac:(lia)) as (u & UU & SU & _ & H). unfold make_datetime. rewrite H.
  split; [unfold moment, shown in *; cbn [dt_year dt_month dt_day dt_hour dt_min dt_sec dt_tz]; exact MO|].
  split; [cbn [dt_unix]; intros ->; lia|]. intros pieces P. rewrite (R pieces P). unfold plain, make_datetime. rewrite H. reflexivity.
Qed.
Print Assumptions C73_other_zone_refuted.

(** From Prague to London (2024). *)
Definition london : host := zone_host 0 1711846800 1729990800.
Example C73_sample : let d := mkDT 2024 7 3 11 46 40 3 1720000000 (-7200) in
  follows london (zwest 0 1711846800 1729990800) prague_summer /\ local_time_at prague 1720000000 = Ok d
  /\ prague_west 1720000000 <> zwest 0 1711846800 1729990800 1720000000
  /\ 1720003600 - zwest 0 1711846800 1729990800 1720003600 = 1720000000 - prague_west 1720000000
  /\ wf (mkVer 2 1) (VDateTime d) /\ make_datetime (Some (host_mktime prague)) d = d
  /\ make_datetime (Some (host_mktime london)) d = mkDT 2024 7 3 11 46 40 3 1720003600 (-7200).
Proof.
  cbv zeta. split; [apply zone_follows; [lia| |]; vm_compute; reflexivity|]. split; [vm_compute; reflexivity|].
  split; [vm_compute; discriminate|]. split; [vm_compute; reflexivity|].
  split; [cbn [wf]; unfold dt_ok; cbn; repeat split; try lia; exists (-8); lia|]. split; vm_compute; reflexivity.
Qed.
