(** Lemmas for P_DateTime.v, and a host with summer time. *)
From Coq Require Import Lia ZifyBool.
From Verif Require Import Base Value Text M_Base64 M_Iso M_Marshal M_BinUnmarshal M_TreeBuilder M_Dump M_DateTime S_Calendar S_DateTime S_Iso L_Calendar L_Iso.

Lemma small8 : forall z, -128 <= z < 128 -> s8 z = z.
Proof. intros. unfold s8, signed. change (2 ^ (8 - 1)) with 128. change (2 ^ 8) with 256. destruct (Z.leb_spec 0 z).
  - rewrite Z.mod_small by lia. destruct (z <? 128) eqn:E; lia.
  - replace z with (z + 256 + (-1) * 256) by lia. rewrite Z.mod_add by lia. rewrite Z.mod_small by lia. destruct (z + 256 <? 128) eqn:E; lia. Qed.
Lemma small16 : forall z, in_s16 z -> s16 z = z.
Proof. unfold in_s16. change (2 ^ 15) with 32768. intros. unfold s16, signed. change (2 ^ (16 - 1)) with 32768. change (2 ^ 16) with 65536. destruct (Z.leb_spec 0 z).
  - rewrite Z.mod_small by lia. destruct (z <? 32768) eqn:E; lia.
  - replace z with (z + 65536 + (-1) * 65536) by lia. rewrite Z.mod_add by lia. rewrite Z.mod_small by lia. destruct (z + 65536 <? 32768) eqn:E; lia. Qed.
Lemma small32 : forall z, -200000 < z < 200000 -> s32 z = z.
Proof. intros. unfold s32, signed. change (2 ^ (32 - 1)) with 2147483648. change (2 ^ 32) with 4294967296. destruct (Z.leb_spec 0 z).
  - rewrite Z.mod_small by lia. destruct (z <? 2147483648) eqn:E; lia.
  - replace z with (z + 4294967296 + (-1) * 4294967296) by lia. rewrite Z.mod_add by lia. rewrite Z.mod_small by lia.
    destruct (z + 4294967296 <? 2147483648) eqn:E; lia. Qed.
Lemma s16_range : forall z, in_s16 (s16 z).
Proof. intros. unfold in_s16, s16, signed. change (2 ^ 15) with 32768. change (2 ^ (16 - 1)) with 32768. change (2 ^ 16) with 65536.
  pose proof (Z.mod_pos_bound z 65536 ltac:(lia)). destruct (z mod 65536 <? 32768) eqn:E; lia. Qed.

Lemma week_day_range : forall n, 0 <= week_day n <= 6.
Proof. intros. unfold week_day. pose proof (Z.mod_pos_bound (n + 4) 7 ltac:(lia)). lia. Qed.

(** The date made from a broken-down time. *)
Lemma of_tm_ok : forall l x unix tz, fields_at l x -> in_s16 (tm_year l + 1900) ->
  exists d, of_tm l unix tz = Ok d /\ dt_unix d = unix /\ dt_tz d = tz /\ valid_date d /\ shown d = x /\ dt_wday d = week_day (x / 86400)
    /\ dt_year d = tm_year l + 1900.
Proof.
  intros l x unix tz (V & S & W) Y. unfold of_tm. destruct (2147483647 <? tm_year l + 1900) eqn:E; [unfold in_s16 in Y; change (2 ^ 15) with 32768 in Y; lia|].
  destruct V as ((M & D) & H & MI & SS). pose proof (month_days_pos (tm_year l + 1900) (tm_mon l + 1)). pose proof (week_day_range (x / 86400)).
  rewrite small16 by exact Y. rewrite !small8 by lia. eexists. split; [reflexivity|].
  unfold valid_date, shown. cbn [dt_unix dt_tz dt_wday dt_year dt_month dt_day dt_hour dt_min dt_sec].
  split; [reflexivity|]. split; [reflexivity|]. split; [unfold valid, valid_day; lia|]. split; [exact S|]. split; [exact W|reflexivity].
Qed.

Lemma zone_std : forall c west summer t, follows c west summer -> standard c west summer -> usual t -> zone_of c (localtime c t) = west t.
Proof.
  intros c west summer t F (S & B) U. destruct (clock_shows _ _ _ F t U) as (_ & D). unfold zone_of. rewrite (S t).
  destruct (summer t) eqn:E.
  - assert (0 < tm_isdst (localtime c t)) by (apply D; reflexivity). destruct (0 <? tm_isdst (localtime c t)) eqn:G; [|lia]. apply small32. lia.
  - destruct (0 <? tm_isdst (localtime c t)) eqn:G; [apply Z.ltb_lt in G; apply D in G; discriminate|]. rewrite Z.sub_0_r. apply small32. lia.
Qed.

Lemma found_fields : forall c west summer y m d h mi s t, follows c west summer -> valid y m d h mi s -> usual t -> seconds y m d h mi s = t - west t ->
  exists u, usual u /\ seconds y m d h mi s = u - west u /\ mktime c (tm_of_fields y m d h mi s) = (u, localtime c u).
Proof.
  intros c west summer y m d h mi s t F V U E. destruct (clock_found _ _ _ F (tm_of_fields y m d h mi s) t) as (u & A & B & C);
    unfold tm_of_fields in *; cbn [tm_year tm_mon tm_mday tm_hour tm_min tm_sec tm_isdst] in *;
    try replace (y - 1900 + 1900) with y in * by lia; try replace (m - 1 + 1) with m in * by lia; auto; [lia|].
  exists u. split; [exact A|]. split; [lia|exact C].
Qed.

(** What [mktime] gives for a date whose fields are shown at some moment. *)
Lemma mktime_found : forall c west summer d t, follows c west summer -> valid_date d -> usual t -> shown d = t - west t ->
  exists u, usual u /\ u - west u = t - west t /\ mktime c (tm_of_fields (dt_year d) (dt_month d) (dt_day d) (dt_hour d) (dt_min d) (dt_sec d)) = (u, localtime c u)
    /\ host_mktime c (dt_year d) (dt_month d) (dt_day d) (dt_hour d) (dt_min d) (dt_sec d) = (u, week_day (shown d / 86400)).
Proof.
  intros c west summer d t F V U S. destruct (found_fields _ _ _ _ _ _ _ _ _ _ F V U S) as (u & UU & SU & M). exists u. unfold shown in S.
  split; [exact UU|]. split; [lia|]. split; [exact M|]. unfold host_mktime. rewrite M. cbn [fst]. f_equal.
  destruct (clock_shows _ _ _ F u UU) as ((_ & _ & W) & _). rewrite W. unfold shown. rewrite SU. reflexivity.
Qed.

(** * A host whose clock is [tz] seconds behind UTC, with summer time from [lo] to [hi] *)
Section Zone.
  Variables tz lo hi : Z.
  Definition zsummer (t : Z) : bool := (lo <=? t) && (t <? hi).
  Definition zwest (t : Z) : Z := tz - (if zsummer t then 3600 else 0).
  Definition zlocal (t : Z) : tm :=
    let x := t - zwest t in
    let '(y, m, d) := civil (x / 86400) in
    let r := x mod 86400 in
    mkTm (y - 1900) (m - 1) d (r / 3600) (r mod 3600 / 60) (r mod 60) (week_day (x / 86400)) (if zsummer t then 1 else 0).
  Definition zmktime (l : tm) : Z * tm :=
    let x := seconds (tm_year l + 1900) (tm_mon l + 1) (tm_mday l) (tm_hour l) (tm_min l) (tm_sec l) in
    let t := if tm_isdst l =? 0 then x + tz else if 0 <? tm_isdst l then x + tz - 3600
             else if zsummer (x + tz - 3600) then x + tz - 3600 else x + tz in
    (t, zlocal t).
  Definition zone_host : host := mkHost zlocal zmktime tz.

  Lemma zone_follows : - 100000 < tz < 100000 -> Z.abs lo < 2 ^ 54 -> Z.abs hi < 2 ^ 54 -> follows zone_host zwest zsummer.
  Proof.
    change (2 ^ 54) with 18014398509481984. intros B L H. split.
    - intros t U. cbn [localtime zone_host]. unfold zlocal. set (x := t - zwest t). destruct (civil_ok (x / 86400)) as (P & Q).
      destruct (civil (x / 86400)) as ((y, m), d). cbn in P, Q. pose proof (Z.div_mod x 86400 ltac:(lia)). pose proof (Z.mod_pos_bound x 86400 ltac:(lia)).
      pose proof (Z.div_mod (x mod 86400) 3600 ltac:(lia)). pose proof (Z.mod_pos_bound (x mod 86400) 3600 ltac:(lia)).
      pose proof (Z.div_mod (x mod 86400 mod 3600) 60 ltac:(lia)). pose proof (Z.mod_pos_bound (x mod 86400 mod 3600) 60 ltac:(lia)).
      assert (R: x mod 86400 mod 60 = x mod 86400 mod 3600 mod 60).
      { replace (x mod 86400) with (x mod 86400 mod 3600 + (x mod 86400 / 3600 * 60) * 60) at 1 by lia. rewrite Z.mod_add by lia. reflexivity. }
      split.
      + unfold fields_at. cbn [tm_year tm_mon tm_mday tm_hour tm_min tm_sec tm_wday]. replace (y - 1900 + 1900) with y by lia. replace (m - 1 + 1) with m by lia.
        rewrite R. split; [|split; [|reflexivity]].
        * split; [exact P|]. split; [|split]; [|lia|lia].
          split; [apply Z.div_pos; lia|]. enough (x mod 86400 / 3600 < 24) by lia. apply Z.div_lt_upper_bound; lia.
        * unfold seconds. rewrite Q. lia.
      + cbn [tm_isdst]. destruct (zsummer t); split; intros; try lia; try discriminate; reflexivity.
    - unfold usual. change (2 ^ 55) with 36028797018963968. intros l t I V U E.
      unfold zone_host. cbn [mktime localtime]. unfold zmktime. set (x := seconds _ _ _ _ _ _) in *.
      replace (tm_isdst l =? 0) with false by lia. replace (0 <? tm_isdst l) with false by lia.
      destruct (zsummer (x + tz - 3600)) eqn:Z1.
      + exists (x + tz - 3600). split; [unfold zsummer in Z1; lia|]. split; [rewrite <- E; unfold zwest; rewrite Z1; lia|reflexivity].
      + exists (x + tz). assert (T: zsummer t = false).
        { unfold zwest in E. destruct (zsummer t) eqn:T; [|reflexivity]. replace (x + tz - 3600) with t in Z1 by lia. congruence. }
        unfold zwest in E. rewrite T in E. replace (x + tz) with t by lia.
        split; [exact U|]. split; [reflexivity|reflexivity].
  Qed.
  Lemma zone_standard : - 100000 < tz < 100000 -> standard zone_host zwest zsummer.
  Proof. intros. split; [reflexivity|exact H]. Qed.
End Zone.
