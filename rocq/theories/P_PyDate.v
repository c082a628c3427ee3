(** C107, C108, C109: dates and Booleans of the Python module. *)
From Coq Require Import Lia ZifyBool.
From Verif Require Import Base Value Text M_Base64 M_Iso M_Marshal M_BinUnmarshal M_TreeBuilder M_Dump M_Python M_PyDate S_Calendar S_DateTime S_Iso S_PyDate
  L_Calendar L_DateTime L_Iso P_DateTime L_PyDate.
From Verif Require M_DateTime.

(** * C107 *)

(** [LocalTime(t)]: the date stands for [t] and shows what the local clock shows. *)
Theorem C107_local_time : forall k west summer t, follows (k_host k) west summer -> standard (k_host k) west summer -> usual t -> k_fits k t = true ->
  in_s16 (M_DateTime.tm_year (M_DateTime.localtime (k_host k) t) + 1900) ->
  exists d, local_time k [PyInt t] = Made d /\ date_of t (t - west t) d.
Proof.
  intros k west summer t F S U FT Y. unfold local_time, of_number, is_int. rewrite (usual_long t U).
  destruct (at_time k west summer t (M_DateTime.zone_of (k_host k) (M_DateTime.localtime (k_host k) t)) F U FT Y) as (d & E & A & Z & V & SH & W).
  exists d. split; [exact E|]. rewrite (zone_std _ _ _ _ F S U) in Z. split; auto. unfold moment. lia.
Qed.
Print Assumptions C107_local_time.

(** [LocalTime()]: the same for the present time. *)
Theorem C107_local_now : forall k west summer, follows (k_host k) west summer -> standard (k_host k) west summer -> usual (k_now k) -> k_fits k (k_now k) = true ->
  in_s16 (M_DateTime.tm_year (M_DateTime.localtime (k_host k) (k_now k)) + 1900) ->
  exists d, local_time k [] = Made d /\ date_of (k_now k) (k_now k - west (k_now k)) d.
Proof.
  intros k west summer F S U FT Y. unfold local_time.
  destruct (at_time k west summer (k_now k) (M_DateTime.zone_of (k_host k) (M_DateTime.localtime (k_host k) (k_now k))) F U FT Y) as (d & E & A & Z & V & SH & W).
  exists d. split; [exact E|]. rewrite (zone_std _ _ _ _ F S U) in Z. split; auto. unfold moment. lia.
Qed.
Print Assumptions C107_local_now.

(** [DateTime(t, zone)] with the zone the local clock has at [t]. *)
Theorem C107_own_zone_partial : forall k west summer t, follows (k_host k) west summer -> standard (k_host k) west summer -> usual t -> k_fits k t = true ->
  in_s16 (M_DateTime.tm_year (M_DateTime.localtime (k_host k) t) + 1900) ->
  exists d, date_time k [PyInt t; PyInt (west t)] = Made d /\ date_of t (t - west t) d.
Proof.
  intros k west summer t F S U FT Y. unfold date_time, as_cint, of_number.
  assert (B: - 200000 < west t < 200000) by (destruct S as (S & B); rewrite (S t); destruct (summer t); lia).
  assert (UW: usual (west t)) by (unfold usual; change (2 ^ 55) with 36028797018963968; lia). rewrite (usual_long _ UW).
  replace ((- 2 ^ 31 <=? west t) && (west t <? 2 ^ 31))%bool with true by (change (2 ^ 31) with 2147483648; lia). rewrite (usual_long t U).
  destruct (at_time k west summer t (west t) F U FT Y) as (d & E & A & Z & V & SH & W). exists d. split; [exact E|]. split; auto. unfold moment. lia.
Qed.
Print Assumptions C107_own_zone_partial.

(** Refuted: with any other zone the date stands for another moment, as does that of [UTCTime(t)] where the clock does not show UTC. *)
Theorem C107_zone_refuted : forall k west summer t tz, follows (k_host k) west summer -> usual t -> k_fits k t = true ->
  in_s16 (M_DateTime.tm_year (M_DateTime.localtime (k_host k) t) + 1900) -> in_s32 tz -> tz <> west t ->
  exists d, date_time k [PyInt t; PyInt tz] = Made d /\ dt_unix d = t /\ dt_tz d = tz /\ moment d <> t.
Proof.
  intros k west summer t tz F U FT Y B N. unfold date_time, as_cint, of_number. unfold in_s32 in B.
  assert (UW: usual tz) by (unfold usual; change (2 ^ 31) with 2147483648 in B; change (2 ^ 55) with 36028797018963968; lia). rewrite (usual_long _ UW).
  replace ((- 2 ^ 31 <=? tz) && (tz <? 2 ^ 31))%bool with true by lia. rewrite (usual_long t U).
  destruct (at_time k west summer t tz F U FT Y) as (d & E & A & Z & V & SH & W). exists d. split; [exact E|]. split; [exact A|]. split; [exact Z|]. unfold moment. lia.
Qed.
Print Assumptions C107_zone_refuted.

Theorem C107_utc_time_refuted : forall k west summer t, follows (k_host k) west summer -> usual t -> k_fits k t = true ->
  in_s16 (M_DateTime.tm_year (M_DateTime.localtime (k_host k) t) + 1900) -> west t <> 0 ->
  exists d, utc_time k [PyInt t] = Made d /\ dt_unix d = t /\ dt_tz d = 0 /\ moment d <> t.
Proof.
  intros k west summer t F U FT Y N. unfold utc_time, of_number, is_int. rewrite (usual_long t U).
  destruct (at_time k west summer t 0 F U FT Y) as (d & E & A & Z & V & SH & W). exists d. split; [exact E|]. split; [exact A|]. split; [exact Z|]. unfold moment. lia.
Qed.
Print Assumptions C107_utc_time_refuted.

(** [UTCTime()] stands for the present (while no change of summer time is near); refuted: its unix time does not. *)
Theorem C107_utc_now_refuted : forall k west summer, follows (k_host k) west summer -> standard (k_host k) west summer ->
  let t := k_now k in let u := t + west t in
  usual t -> usual u -> k_fits k t = true -> k_fits k u = true -> west u = west t ->
  in_s16 (M_DateTime.tm_year (M_DateTime.localtime (k_host k) u) + 1900) ->
  exists d, utc_time k [] = Made d /\ valid_date d /\ dt_tz d = 0 /\ moment d = t /\ dt_unix d = t + west t.
Proof.
  intros k west summer F S t u U UU FT FU W Y. unfold utc_time. fold t. rewrite FT.
  assert (Z: zone_now k = west t).
  { unfold zone_now. fold t. destruct (clock_shows _ _ _ F t U) as (_ & D). destruct S as (S & _). rewrite (S t).
    destruct (summer t) eqn:E; destruct (Z.ltb_spec 0 (M_DateTime.tm_isdst (M_DateTime.localtime (k_host k) t))) as [G|G]; lia. }
  assert (X: s64 (t + zone_now k) = u).
  { rewrite Z. fold u. unfold s64, signed. change (2 ^ (64 - 1)) with 9223372036854775808. change (2 ^ 64) with 18446744073709551616. unfold usual in UU.
    change (2 ^ 55) with 36028797018963968 in UU. destruct (Z.leb_spec 0 u).
    - rewrite Z.mod_small by lia. destruct (Z.ltb_spec u 9223372036854775808); lia.
    - replace u with (u + 18446744073709551616 + (-1) * 18446744073709551616) at 1 2 by lia. rewrite Z.mod_add by lia. rewrite Z.mod_small by lia.
      destruct (Z.ltb_spec (u + 18446744073709551616) 9223372036854775808); lia. }
  rewrite X. destruct (at_time k west summer u 0 F UU FU Y) as (d & E & A & ZZ & V & SH & _). exists d.
  split; [exact E|]. split; [exact V|]. split; [exact ZZ|]. split; [unfold moment, u in *; lia|exact A].
Qed.
Print Assumptions C107_utc_now_refuted.

(** [DateTime(text)] of the text of a date of the calendar: it tells what the text tells; its unix time is one at which the local clock shows that. *)
Theorem C107_text_partial : forall k west summer d t, follows (k_host k) west summer -> iso_range d -> valid_date d -> usual t -> shown d = t - west t ->
  exists x, date_time k [date_text d] = Made x /\ same_text x d /\ moment x = moment d /\ date_text x = date_text d
    /\ dt_unix x - west (dt_unix x) = shown d /\ (dt_unix x <> -1 -> dt_wday x = week_day (shown d / 86400)).
Proof.
  intros k west summer d t F R V U SH. destruct (text_read k west summer d t F R V U SH) as (u & UU & SU & E). eexists. split; [exact E|].
  split; [reflexivity|]. split; [reflexivity|]. split; [reflexivity|]. cbn [dt_unix dt_wday]. split; [exact SU|]. intros N. destruct (Z.eqb_spec u (-1)); [contradiction|reflexivity].
Qed.
Print Assumptions C107_text_partial.

(** The text of a date made from a time gives the same date again. *)
Theorem C107_text_round_trip : forall k west summer t d, follows (k_host k) west summer -> usual t -> t <> -1 -> once west t -> date_of t (t - west t) d -> iso_range d ->
  date_time k [date_text d] = Made d.
Proof.
  intros k west summer t d F U N O [V SH MO A W] R. destruct (text_read k west summer d t F R V U SH) as (u & UU & SU & E).
  assert (u = t) by (apply O; [exact UU|lia]). subst u. rewrite E. destruct (Z.eqb_spec t (-1)); [contradiction|]. rewrite SH, <- W, <- A. destruct d; reflexivity.
Qed.
Print Assumptions C107_text_round_trip.

(** Any text at all gives a date or an exception. *)
Theorem C107_any_text : forall k s, date_time k [PyStr s] <> Crash.
Proof.
  intros k s. unfold date_time, of_text. destruct (py_encode s) as [t|]; [|discriminate]. destruct (parse_iso t); discriminate.
Qed.
Print Assumptions C107_any_text.

(** Refuted: the unix time does not regard the zone of the text. *)
Theorem C107_text_zone_refuted : forall k west summer d t, follows (k_host k) west summer -> iso_range d -> valid_date d -> usual t -> shown d = t - west t ->
  (forall u, usual u -> u - west u = t - west t -> dt_tz d <> west u) ->
  exists x, date_time k [date_text d] = Made x /\ moment x = moment d /\ dt_unix x <> moment x.
Proof.
  intros k west summer d t F R V U SH N. destruct (text_read k west summer d t F R V U SH) as (u & UU & SU & E). eexists. split; [exact E|]. split; [reflexivity|].
  specialize (N u UU). unfold moment, shown in *. cbn [dt_unix dt_tz dt_year dt_month dt_day dt_hour dt_min dt_sec]. lia.
Qed.
Print Assumptions C107_text_zone_refuted.

(** Refuted: a time so far off that its year is no [int] crashes the interpreter; what is no number is no TypeError with two arguments. *)
Theorem C107_far_refuted : forall k t tz, k_fits k t = false -> - 2 ^ 63 <= t < 2 ^ 63 -> in_s32 tz ->
  local_time k [PyInt t] = Crash /\ utc_time k [PyInt t] = Crash /\ date_time k [PyInt t; PyInt tz] = Crash.
Proof.
  intros k t tz N R B. assert (L: as_long (PyInt t) = Some t).
  { unfold as_long. replace ((- 2 ^ 63 <=? t) && (t <? 2 ^ 63))%bool with true by lia. reflexivity. }
  assert (C: as_cint (PyInt tz) = Some tz).
  { unfold in_s32 in B. change (2 ^ 31) with 2147483648 in B. unfold as_cint. rewrite (usual_long tz) by (unfold usual; change (2 ^ 55) with 36028797018963968; lia).
    replace ((- 2 ^ 31 <=? tz) && (tz <? 2 ^ 31))%bool with true by (change (2 ^ 31) with 2147483648; lia). reflexivity. }
  unfold local_time, utc_time, date_time. rewrite C. unfold of_number, fields_at_time. rewrite L. cbn [is_int]. rewrite N. auto.
Qed.
Print Assumptions C107_far_refuted.

Theorem C107_no_number_refuted : forall k west summer v tz, follows (k_host k) west summer -> as_long v = None -> in_s32 tz -> k_fits k (-1) = true ->
  in_s16 (M_DateTime.tm_year (M_DateTime.localtime (k_host k) (-1)) + 1900) -> date_time k [v; PyInt tz] = Raised PE_System.
Proof.
  intros k west summer v tz F N B FT Y. assert (S: date_time k [v; PyInt tz] = match as_cint (PyInt tz) with Some z => of_number k v (fun _ => z) | None => Raised PE_Type end) by (destruct v; reflexivity). rewrite S.
  assert (C: as_cint (PyInt tz) = Some tz).
  { unfold in_s32 in B. change (2 ^ 31) with 2147483648 in B. unfold as_cint. rewrite (usual_long tz) by (unfold usual; change (2 ^ 55) with 36028797018963968; lia).
    replace ((- 2 ^ 31 <=? tz) && (tz <? 2 ^ 31))%bool with true by (change (2 ^ 31) with 2147483648; lia). reflexivity. }
  rewrite C. unfold of_number. rewrite N. destruct (at_time k west summer (-1) tz F ltac:(unfold usual; cbn; lia) FT Y) as (d & E & _). rewrite E. reflexivity.
Qed.
Print Assumptions C107_no_number_refuted.

(** A date received without a unix time gets one at which the local clock shows it; one received with a unix time is kept. *)
Theorem C107_received_partial : forall c west summer d t, follows c west summer -> valid_date d -> usual t -> shown d = t - west t ->
  let x := new_date (host_of c) d in
  same_text x d /\ (dt_unix d <> -1 -> x = d) /\
  (dt_unix d = -1 -> dt_unix x - west (dt_unix x) = shown d /\ (dt_unix x <> -1 -> dt_wday x = week_day (shown d / 86400))).
Proof.
  intros c west summer d t F V U SH x. unfold x, new_date. destruct (Z.eqb_spec (dt_unix d) (-1)) as [E|E].
  - split; [reflexivity|]. split; [contradiction|]. intros _. destruct (mktime_found _ _ _ _ _ F V U SH) as (u & UU & SU & M & _).
    unfold host_of, fields. cbn [dt_year dt_month dt_day dt_hour dt_min dt_sec]. rewrite M. cbn [dt_unix dt_wday]. split; [lia|]. intros N.
    destruct (Z.eqb_spec u (-1)); [contradiction|]. destruct (clock_shows _ _ _ F u UU) as ((_ & _ & W) & _). rewrite W.
    rewrite small8 by (pose proof (week_day_range ((u - west u) / 86400)); lia). do 2 f_equal. lia.
  - split; [reflexivity|]. split; [reflexivity|]. intros X. contradiction.
Qed.
Print Assumptions C107_received_partial.

(** Prague, on July 3rd, 2024; [localtime] fails beyond 2^55. *)
Definition prague_clock : clock := mkClock prague 1720000000 (fun t => Z.abs t <? 2 ^ 55).
Example C107_sample : follows (k_host prague_clock) prague_west prague_summer /\ standard (k_host prague_clock) prague_west prague_summer
  /\ local_time prague_clock [PyInt 1700000000] = Made (mkDT 2023 11 14 23 13 20 2 1700000000 (-3600))
  /\ local_time prague_clock [] = Made (mkDT 2024 7 3 11 46 40 3 1720000000 (-7200))
  /\ utc_time prague_clock [] = Made (mkDT 2024 7 3 9 46 40 3 1719992800 0)
  /\ utc_time prague_clock [PyInt 1700000000] = Made (mkDT 2023 11 14 23 13 20 2 1700000000 0)
  /\ date_time prague_clock [PyInt 1700000000; PyInt (-3600)] = Made (mkDT 2023 11 14 23 13 20 2 1700000000 (-3600))
  /\ date_text (mkDT 2023 11 14 23 13 20 2 1700000000 (-3600)) = PyStr (map b2z (str "20231114T23:13:20+0100"))
  /\ date_time prague_clock [PyStr (map b2z (str "20231114T23:13:20+0100"))] = Made (mkDT 2023 11 14 23 13 20 2 1700000000 (-3600))
  /\ date_time prague_clock [PyStr (map b2z (str "20231114T23:13:20Z"))] = Made (mkDT 2023 11 14 23 13 20 2 1700000000 0)
  /\ date_time prague_clock [PyStr (map b2z (str "today"))] = Bad_text /\ date_time prague_clock [PyStr [55296]] = Raised PE_System
  /\ date_time prague_clock [PyStr []; PyInt 0] = Raised PE_System
  /\ once prague_west 1700000000 /\ iso_range (mkDT 2023 11 14 23 13 20 2 1700000000 (-3600))
  /\ new_date (host_of prague) (mkDT 2023 11 14 23 13 20 2 (-1) 0) = mkDT 2023 11 14 23 13 20 2 1700000000 0
  /\ prague_west (1720000000 + prague_west 1720000000) = prague_west 1720000000.
Proof.
  split; [exact prague_follows|]. split; [exact prague_standard|]. do 11 (split; [vm_compute; reflexivity|]).
  split; [|split; [unfold iso_range; cbn; repeat split; try lia; exists (-60); lia|split; vm_compute; reflexivity]].
  intros u _. unfold prague_west, zwest, zsummer. destruct ((1711846800 <=? u) && (u <? 1729990800))%bool eqn:E; change ((1711846800 <=? 1700000000) && (1700000000 <? 1729990800))%bool with false; cbv iota; lia.
Qed.

Example C107_far_sample : k_fits prague_clock (2 ^ 60) = false /\ - 2 ^ 63 <= 2 ^ 60 < 2 ^ 63.
Proof. split; [vm_compute; reflexivity|]. lia. Qed.

(** * C108 *)

(** Dates of one zone are compared as the moments they stand for. *)
Theorem C108_one_zone_partial : forall c op x y, reads_standard c -> valid_date x -> valid_date y -> usual (shown x) -> usual (shown y) -> dt_tz x = dt_tz y ->
  answers (date_cmp c op (PyDate x) (PyDate y)) (holds op (moment x) (moment y)).
Proof.
  intros c op x y R VX VY UX UY T. eexists. split; [reflexivity|]. rewrite int_cmp_holds, (timestamp_std c x R VX UX), (timestamp_std c y R VY UY). unfold moment.
  destruct op; cbn [holds]; lia.
Qed.
Print Assumptions C108_one_zone_partial.

(** Whatever the C library does and whatever the dates hold, the comparisons order dates totally: each is the comparison of one number of
    each date. *)
Theorem C108_order : forall c, exists rank, forall op x y, answers (date_cmp c op (PyDate x) (PyDate y)) (holds op (rank x) (rank y)).
Proof. intros c. exists (timestamp c). intros op x y. eexists. split; [reflexivity|]. apply int_cmp_holds. Qed.
Print Assumptions C108_order.

(** A date is not equal to anything else, and not ordered with it. *)
Theorem C108_other_objects : forall c x v, (forall d, v <> PyDate d) -> incomparable (fun op => date_cmp c op (PyDate x) v).
Proof.
  intros c x v N. assert (E: forall op, date_cmp c op (PyDate x) v = unlike op) by (intros op; destruct v; try reflexivity; destruct (N d eq_refl)).
  unfold incomparable, answers. rewrite !E. split; [|split].
  - exists false. split; [reflexivity|]. split; [discriminate|contradiction].
  - exists true. split; [reflexivity|]. split; auto.
  - intros op A B. rewrite E. destruct op; try reflexivity; contradiction.
Qed.
Print Assumptions C108_other_objects.

(** Refuted: dates of different zones standing for one moment are unequal ... *)
Theorem C108_equal_refuted : forall c x y, reads_standard c -> valid_date x -> valid_date y -> usual (shown x) -> usual (shown y) ->
  moment x = moment y -> dt_tz x <> dt_tz y -> date_cmp c EQ (PyDate x) (PyDate y) = PyOk false.
Proof.
  intros c x y R VX VY UX UY M N. cbn [date_cmp int_cmp]. rewrite (timestamp_std c x R VX UX), (timestamp_std c y R VY UY). unfold moment in M.
  replace (_ =? _) with false by lia. reflexivity.
Qed.
Print Assumptions C108_equal_refuted.

(** ... and less than twice the difference of the zones apart they are ordered the wrong way round. *)
Theorem C108_order_refuted : forall c x y, reads_standard c -> valid_date x -> valid_date y -> usual (shown x) -> usual (shown y) ->
  moment x < moment y < moment x + 2 * (dt_tz y - dt_tz x) -> date_cmp c LT (PyDate x) (PyDate y) = PyOk false /\ date_cmp c GT (PyDate x) (PyDate y) = PyOk true.
Proof.
  intros c x y R VX VY UX UY M. cbn [date_cmp int_cmp]. rewrite (timestamp_std c x R VX UX), (timestamp_std c y R VY UY). unfold moment in M.
  split; f_equal; lia.
Qed.
Print Assumptions C108_order_refuted.

(** Noon in Prague, in summer, is ten o'clock UTC. *)
Example C108_sample : let noon := mkDT 2024 7 3 12 0 0 3 1720000800 (-7200) in let ten := mkDT 2024 7 3 10 0 0 3 1720000800 0 in let half := mkDT 2024 7 3 10 30 0 3 1720002600 0 in
  reads_standard prague /\ valid_date noon /\ valid_date ten /\ valid_date half /\ moment noon = moment ten /\ dt_tz noon <> dt_tz ten
  /\ moment noon < moment half < moment noon + 2 * (dt_tz half - dt_tz noon)
  /\ date_cmp prague EQ (PyDate noon) (PyDate noon) = PyOk true /\ date_cmp prague EQ (PyDate noon) (PyDate ten) = PyOk false
  /\ date_cmp prague LT (PyDate ten) (PyDate half) = PyOk true /\ date_cmp prague LT (PyDate noon) (PyDate half) = PyOk false
  /\ date_cmp prague EQ (PyDate noon) (PyInt 1720000800) = PyOk false /\ date_cmp prague GE (PyDate noon) (PyInt 1720000800) = PyRaise PE_Type.
Proof.
  cbv zeta. split; [apply zone_reads|]. split; [vm_compute; repeat split; discriminate|]. split; [vm_compute; repeat split; discriminate|].
  split; [vm_compute; repeat split; discriminate|]. vm_compute. repeat split; discriminate.
Qed.

(** * C109 *)

(** [Boolean(v)] and [boolean(v)] hold what Python takes [v] for (doubles are 64 bits). *)
Theorem C109_truth : forall other v, v <> PyOther -> (forall d, v = PyFloat d -> 0 <= d < 2 ^ 64) ->
  exists b, boolean_init other [v] = R_value b /\ boolean_of other v None = R_value b /\ (b = false <-> falsy v).
Proof.
  intros other v N D.
  assert (H: exists b, truth other v = Some b /\ (b = false <-> falsy v)).
  { destruct v; cbn [truth]; try (eexists; split; [reflexivity|]; split; [discriminate|intros X; inversion X]); try contradiction.
    - eexists. split; [reflexivity|]. split; [intros; constructor|reflexivity].
    - exists b. split; [reflexivity|]. split; [intros ->; constructor|intros X; inversion X; reflexivity].
    - exists b. split; [reflexivity|]. split; [intros ->; constructor|intros X; inversion X; reflexivity].
    - eexists. split; [reflexivity|]. destruct (Z.eqb_spec z 0) as [->|E]; (split; [intros X|intros X]); try discriminate X; try reflexivity; try apply falsy_int. inversion X; congruence.
    - eexists. split; [reflexivity|]. specialize (D bits eq_refl). destruct (Z.eqb_spec (bits mod 2 ^ 63) 0) as [E|E]; cbn [negb]; split; try discriminate; try reflexivity.
      + intros _. change (2 ^ 63) with 9223372036854775808 in *. change (2 ^ 64) with 18446744073709551616 in D.
        destruct (Z.eq_dec bits 0) as [->|]; [constructor|]. replace bits with 9223372036854775808; [apply falsy_minus|].
        pose proof (Z.div_mod bits 9223372036854775808 ltac:(lia)). rewrite E in H. lia.
      + intros X. inversion X; subst; exfalso; apply E; reflexivity.
    - eexists. split; [reflexivity|]. destruct s; split; try discriminate; try reflexivity; [intros; constructor|intros X; inversion X].
    - eexists. split; [reflexivity|]. destruct s; split; try discriminate; try reflexivity; [intros; constructor|intros X; inversion X].
    - eexists. split; [reflexivity|]. destruct l; split; try discriminate; try reflexivity; [intros; constructor|intros X; inversion X].
    - eexists. split; [reflexivity|]. destruct l; split; try discriminate; try reflexivity; [intros; constructor|intros X; inversion X].
    - eexists. split; [reflexivity|]. destruct m; split; try discriminate; try reflexivity; [intros; constructor|intros X; inversion X]. }
  destruct H as (b & E & H). exists b. unfold boolean_init, boolean_of. rewrite E. auto.
Qed.
Print Assumptions C109_truth.

(** [boolean(v, (no, yes))] chooses. *)
Theorem C109_choice : forall other v no yes b, boolean_init other [v] = R_value b ->
  boolean_of other v (Some (PyTuple [no; yes])) = boolean_init other [if b then yes else no].
Proof.
  intros other v no yes b E. unfold boolean_init, boolean_of in *. destruct (truth other v) as [x|]; [|discriminate]. injection E as <-.
  destruct x; reflexivity.
Qed.
Print Assumptions C109_choice.

(** Compared with another [Boolean] or a [bool], a [Boolean] is what it holds; with anything else it is unequal and not ordered.  Its texts
    and numbers are those of Python's XML-RPC. *)
Theorem C109_compare : forall op a v b, v = PyBoolean b \/ v = PyBool b ->
  answers (boolean_cmp op (PyBoolean a) v) (holds op (if a then 1 else 0) (if b then 1 else 0)) /\
  answers (boolean_cmp op v (PyBoolean a)) (holds op (if b then 1 else 0) (if a then 1 else 0)).
Proof. intros op a v b [-> | ->]; (split; (eexists; split; [reflexivity|]; apply int_cmp_holds)). Qed.
Print Assumptions C109_compare.

Theorem C109_unlike : forall a v, (forall b, v <> PyBoolean b /\ v <> PyBool b) -> incomparable (fun op => boolean_cmp op (PyBoolean a) v).
Proof.
  intros a v N. assert (E: forall op, boolean_cmp op (PyBoolean a) v = unlike op).
  { intros op. destruct v; try reflexivity; destruct (N b) as (A & B); [destruct (B eq_refl)|destruct (A eq_refl)]. }
  unfold incomparable, answers. rewrite !E. split; [|split].
  - exists false. split; [reflexivity|]. split; [discriminate|contradiction].
  - exists true. split; [reflexivity|]. split; auto.
  - intros op A B. rewrite E. destruct op; try reflexivity; contradiction.
Qed.
Print Assumptions C109_unlike.

(** Assigning to [value] makes it what Python takes the new value for. *)
Theorem C109_assign : forall other v x b, boolean_init other [v] = R_value x -> boolean_set other (Some v) b = B_stored x.
Proof. intros other v x b E. unfold boolean_init, boolean_set in *. destruct (truth other v) as [y|]; [|discriminate]. injection E as <-. destruct b, y; reflexivity. Qed.
Print Assumptions C109_assign.

Lemma signed_room : forall n z, 1 <= n -> - 2 ^ (n - 1) <= z < 2 ^ (n - 1) -> signed n z = z.
Proof.
  intros n z N H. unfold signed. assert (P: 2 ^ n = 2 * 2 ^ (n - 1)) by (rewrite <- Z.pow_succ_r by lia; f_equal; lia). set (h := 2 ^ (n - 1)) in *. rewrite P.
  destruct (Z.leb_spec 0 z).
  - rewrite Z.mod_small by lia. destruct (Z.ltb_spec z h); lia.
  - assert (E: z mod (2 * h) = z + 2 * h).
    { replace z with (z + 2 * h + (-1) * (2 * h)) at 1 by lia. rewrite Z.mod_add by lia. apply Z.mod_small. lia. }
    rewrite E. destruct (Z.ltb_spec (z + 2 * h) h); lia.
Qed.

(** Assigning a number a field has room for to an attribute of a date: it is read again, and the other attributes stay. *)
Theorem C109_field_partial : forall f z d, room f z -> exists x, set_field f (Some (PyInt z)) d = Stored x /\ get_field f x = PyInt z /\
  (forall g, g <> f -> get_field g x = get_field g d).
Proof.
  intros f z d R. assert (L: as_long (PyInt z) = Some z).
  { unfold as_long. assert (B: - 2 ^ 63 <= z < 2 ^ 63).
    { change (2 ^ 63) with 9223372036854775808. destruct f; cbn [room] in R; unfold in_s16, in_s8, in_s32 in R;
        change (2 ^ 15) with 32768 in R; change (2 ^ 7) with 128 in R; change (2 ^ 31) with 2147483648 in R; change (2 ^ 63) with 9223372036854775808 in R; lia. }
    replace ((- 2 ^ 63 <=? z) && (z <? 2 ^ 63))%bool with true by lia. reflexivity. }
  unfold set_field. cbn [is_int]. rewrite L. eexists. split; [reflexivity|]. destruct d as [y mo da h mi s w u tz]. split.
  - destruct f; cbv beta iota zeta delta [put_field get_field dt_year dt_month dt_day dt_hour dt_min dt_sec dt_wday dt_unix dt_tz]; f_equal; try reflexivity;
      cbn [room] in R; unfold s8, s16, s32; apply signed_room; try lia; exact R.
  - intros g N. destruct f, g; try reflexivity; contradiction.
Qed.
Print Assumptions C109_field_partial.

(** Refuted: other numbers are stored as something else without a word; deleting an attribute crashes the interpreter. *)
Theorem C109_wide_refuted : forall f z d, ~ room f z -> - 2 ^ 63 <= z < 2 ^ 63 -> exists x, set_field f (Some (PyInt z)) d = Stored x /\ get_field f x <> PyInt z.
Proof.
  intros f z d N R. assert (L: as_long (PyInt z) = Some z) by (unfold as_long; replace ((- 2 ^ 63 <=? z) && (z <? 2 ^ 63))%bool with true by lia; reflexivity).
  unfold set_field. cbn [is_int]. rewrite L. eexists. split; [reflexivity|]. destruct d as [y mo da h mi s w u tz]. intros X. injection X as X. apply N. 
  assert (S: forall n, 1 <= n -> - 2 ^ (n - 1) <= signed n z < 2 ^ (n - 1)).
  { clear. intros n H. unfold signed. assert (P: 2 ^ n = 2 * 2 ^ (n - 1)) by (rewrite <- Z.pow_succ_r by lia; f_equal; lia). rewrite P. set (h := 2 ^ (n - 1)) in *.
    assert (0 < h) by (apply Z.pow_pos_nonneg; lia). pose proof (Z.mod_pos_bound z (2 * h) ltac:(lia)). destruct (Z.ltb_spec (z mod (2 * h)) h); lia. }
  destruct f; cbv beta iota zeta delta [put_field get_field dt_year dt_month dt_day dt_hour dt_min dt_sec dt_wday dt_unix dt_tz] in X; cbn [room]; unfold in_s8, in_s16, in_s32;
    first [exact R | rewrite <- X; first [apply (S 8); lia | apply (S 16); lia | apply (S 32); lia]].
Qed.
Print Assumptions C109_wide_refuted.

Theorem C109_delete_refuted : forall other f d b, set_field f None d = Set_crash /\ boolean_set other None b = B_crash.
Proof. intros. split; reflexivity. Qed.
Print Assumptions C109_delete_refuted.

Example C109_sample : let d := mkDT 2024 7 3 12 0 0 3 1720000800 (-7200) in
  set_field F_month (Some (PyInt 8)) d = Stored (mkDT 2024 8 3 12 0 0 3 1720000800 (-7200)) /\ set_field F_month (Some (PyInt 300)) d = Stored (mkDT 2024 44 3 12 0 0 3 1720000800 (-7200))
  /\ set_field F_month (Some (PyStr [56])) d = Refused /\ set_field F_unixTime (Some (PyInt (2 ^ 63))) d = Stored_pending (mkDT 2024 7 3 12 0 0 3 (-1) (-7200))
  /\ ~ room F_month 300 /\ room F_month 8
  /\ boolean_init None [PyStr [48]] = R_value true /\ boolean_init None [PyList []] = R_value false /\ boolean_init None [] = R_value false
  /\ boolean_of None (PyInt 7) (Some (PyTuple [PyInt 1; PyInt 0])) = R_value false /\ boolean_of None (PyInt 7) (Some (PyList [PyNone])) = R_index
  /\ boolean_cmp EQ (PyBoolean true) (PyBool true) = PyOk true /\ boolean_cmp LT (PyBoolean false) (PyBoolean true) = PyOk true /\ boolean_cmp EQ (PyBoolean true) (PyInt 1) = PyOk false
  /\ boolean_set None (Some (PyInt 0)) true = B_stored false.
Proof. vm_compute. repeat split; try discriminate. intros (_ & X). discriminate X. Qed.
