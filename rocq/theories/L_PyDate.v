(** Lemmas for P_PyDate.v. *)
From Coq Require Import Lia ZifyBool.
From Verif Require Import Base Value Text Unicode M_Base64 M_Iso M_Marshal M_BinUnmarshal M_TreeBuilder M_Dump M_Python M_PyDate S_Calendar S_DateTime S_Iso S_PyDate
  L_Base L_Calendar L_DateTime L_Iso S_Xml L_Xml3 L_PyDumps.
From Verif Require M_DateTime.

Lemma at_time : forall k west summer t tz, follows (k_host k) west summer -> usual t -> k_fits k t = true ->
  in_s16 (M_DateTime.tm_year (M_DateTime.localtime (k_host k) t) + 1900) ->
  exists d, fields_at_time k t tz = Made d /\ dt_unix d = t /\ dt_tz d = tz /\ valid_date d /\ shown d = t - west t /\ dt_wday d = week_day ((t - west t) / 86400).
Proof.
  intros k west summer t tz F U FT Y. destruct (clock_shows _ _ _ F t U) as (L & _).
  destruct (of_tm_ok _ _ t tz L Y) as (d & E & A & Z & V & SH & W & _). exists d. unfold fields_at_time. rewrite FT, E. auto 10.
Qed.

Lemma usual_long : forall t, usual t -> as_long (PyInt t) = Some t.
Proof.
  intros t U. unfold as_long. assert (R: ((- 2 ^ 63 <=? t) && (t <? 2 ^ 63))%bool = true).
  { unfold usual in U. change (2 ^ 55) with 36028797018963968 in U. change (2 ^ 63) with 9223372036854775808. lia. }
  rewrite R. reflexivity.
Qed.

Lemma py_ascii : forall s, forallb (fun c => b2z c <? 128) s = true -> py_encode (map b2z s) = Some s.
Proof.
  intros s H. assert (U: Forall uchar (map b2z s) /\ flat_map utf8_char (map b2z s) = s).
  { induction s as [|c s IH]; [split; [constructor|reflexivity]|]. cbn [forallb] in H. apply andb_prop in H as (C & H). destruct (IH H) as (A & B).
    pose proof (b2z_range c). split; [constructor; [unfold uchar; lia|exact A]|]. cbn [map flat_map]. rewrite B. unfold utf8_char. rewrite C, z2b_b2z. reflexivity. }
  destruct U as (U & E). rewrite (encode_xml _ U), E. reflexivity.
Qed.

Lemma plain_ascii : forall s, forallb plain_char s = true -> forallb (fun c => b2z c <? 128) s = true.
Proof.
  intros s H. rewrite forallb_forall in *. intros c I. specialize (H c I). unfold plain_char, between in H. lia.
Qed.

Lemma iso_encode : forall d, py_encode (map b2z (iso_text (dt_year d) (dt_month d) (dt_day d) (dt_hour d) (dt_min d) (dt_sec d) (dt_tz d)))
  = Some (iso_text (dt_year d) (dt_month d) (dt_day d) (dt_hour d) (dt_min d) (dt_sec d) (dt_tz d)).
Proof. intros d. apply py_ascii, plain_ascii. exact (iso_plain d). Qed.

(** The text of a date of the calendar, read. *)
Lemma text_read : forall k west summer d t, follows (k_host k) west summer -> iso_range d -> valid_date d -> usual t -> shown d = t - west t ->
  exists u, usual u /\ u - west u = shown d /\
  date_time k [date_text d] = Made (mkDT (dt_year d) (dt_month d) (dt_day d) (dt_hour d) (dt_min d) (dt_sec d)
    (if u =? -1 then -1 else week_day (shown d / 86400)) u (dt_tz d)).
Proof.
  intros k west summer d t F R V U SH. destruct (mktime_found _ _ _ _ _ F V U SH) as (u & UU & SU & M & _). exists u. split; [exact UU|]. split; [lia|].
  unfold date_text, date_time, of_text. rewrite iso_encode, (parse_iso_text d R). cbv zeta. unfold iso_fields. cbn [dt_year dt_month dt_day dt_hour dt_min dt_sec dt_tz].
  rewrite M. cbn [fst]. destruct (u =? -1); [reflexivity|]. destruct (clock_shows _ _ _ F u UU) as ((_ & _ & W) & _). rewrite W.
  rewrite small8 by (pose proof (week_day_range ((u - west u) / 86400)); lia). replace (u - west u) with (shown d) by lia. reflexivity.
Qed.

(** What the comparison compares. *)
Lemma timestamp_std : forall c d, reads_standard c -> valid_date d -> usual (shown d) -> timestamp c d = shown d + M_DateTime.timezone c - dt_tz d.
Proof.
  intros c d R V U. unfold timestamp. rewrite R; cbn [M_DateTime.tm_year M_DateTime.tm_mon M_DateTime.tm_mday M_DateTime.tm_hour M_DateTime.tm_min M_DateTime.tm_sec M_DateTime.tm_isdst];
    try replace (dt_year d - 1900 + 1900) with (dt_year d) by lia; try replace (dt_month d - 1 + 1) with (dt_month d) by lia; auto.
Qed.
Lemma int_cmp_holds : forall op a b, int_cmp op a b = true <-> holds op a b.
Proof. intros [] a b; cbn [int_cmp holds]; lia. Qed.

Lemma zone_reads : forall tz lo hi, reads_standard (zone_host tz lo hi).
Proof. intros tz lo hi l Z x _ _. cbn [zone_host M_DateTime.mktime M_DateTime.timezone]. unfold zmktime. rewrite Z. reflexivity. Qed.
