(** Lemmas about ISO date-time text. *)
From Coq Require Import Lia.
From Verif Require Import Base Value Text M_Dump M_Base64 M_Iso S_Iso L_Base L_Text.
Ltac Zify.zify_post_hook ::= Z.div_mod_to_equations.

Lemma forall_upto : forall (P : Z -> bool) (n : nat), forallb P (map Z.of_nat (seq 0 n)) = true ->
  forall i, 0 <= i < Z.of_nat n -> P i = true.
Proof.
  intros P n H i Hi. rewrite forallb_forall in H. apply H. apply in_map_iff. exists (Z.to_nat i).
  split; [lia|]. apply in_seq. lia.
Qed.

Definition d2 (n : Z) : bytes := [digit (n / 10); digit (n mod 10)].
Definition d4 (n : Z) : bytes := [digit (n / 1000); digit (n / 100 mod 10); digit (n / 10 mod 10); digit (n mod 10)].

Lemma fmt_d2 : forall n, 0 <= n <= 99 -> fmt_d 2 n = d2 n.
Proof.
  intros n H. apply bytes_eqb_eq.
  apply (forall_upto (fun n => bytes_eqb (fmt_d 2 n) (d2 n)) 100); [vm_compute; reflexivity|lia].
Qed.

Lemma undec_d2 : forall n, 0 <= n <= 99 -> undec (d2 n) = n.
Proof. intros n H. unfold d2. rewrite !undec_cons, !digit_val_digit by lia. cbn. lia. Qed.
Lemma undec_d4 : forall n, 0 <= n <= 9999 -> undec (d4 n) = n.
Proof.
  intros n H. unfold d4. rewrite !undec_cons, !digit_val_digit by lia. rewrite !zlen_cons, zlen_nil.
  change (undec []) with 0. change (10 ^ (1 + (1 + (1 + 0)))) with 1000. change (10 ^ (1 + (1 + 0))) with 100.
  change (10 ^ (1 + 0)) with 10. change (10 ^ 0) with 1. lia.
Qed.
Lemma fmt_d4 : forall n, 0 <= n <= 9999 -> fmt_d 4 n = d4 n.
Proof.
  intros n H. apply bytes_eqb_eq.
  apply (forall_upto (fun n => bytes_eqb (fmt_d 4 n) (d4 n)) (Z.to_nat 10000)); [vm_compute; reflexivity|lia].
Qed.

Lemma take_d2 : forall n r, 0 <= n <= 99 -> take_digits 2 (d2 n ++ r) = (d2 n, r).
Proof. intros n r H. unfold d2. cbn [app take_digits]. rewrite !digit_is_digit by lia. destruct r; reflexivity. Qed.
Lemma take_d4 : forall n r, 0 <= n <= 9999 -> take_digits 4 (d4 n ++ r) = (d4 n, r).
Proof. intros n r H. unfold d4. cbn [app take_digits]. rewrite !digit_is_digit by lia. destruct r; reflexivity. Qed.

Lemma opt_digit : forall k n r, 0 <= n <= 9 -> ~ (48 <= k <= 57) -> opt_char (is_char k) (digit n :: r) = digit n :: r.
Proof.
  intros k n r H K. cbn [opt_char]. unfold is_char. rewrite digit_spec by lia. replace (48 + n =? k) with false by lia. reflexivity.
Qed.
Lemma skip_digit : forall n r, 0 <= n <= 9 -> skip is_space (digit n :: r) = digit n :: r.
Proof.
  intros n r H. cbn [skip]. unfold is_space. rewrite digit_spec by lia.
  replace (48 + n <=? 13) with false by lia. replace (48 + n =? 32) with false by lia. rewrite andb_false_r. reflexivity.
Qed.

Lemma opt_d2 : forall k n r, 0 <= n <= 99 -> ~ (48 <= k <= 57) -> opt_char (is_char k) (d2 n ++ r) = d2 n ++ r.
Proof. intros. unfold d2. cbn [app]. apply opt_digit; lia. Qed.
Lemma skip_d4 : forall n r, 0 <= n <= 9999 -> skip is_space (d4 n ++ r) = d4 n ++ r.
Proof. intros. unfold d4. cbn [app]. apply skip_digit; lia. Qed.

Lemma parse_tz_text : forall tz, (exists m, tz = m * 60 /\ - 6000 < m < 6000) ->
  parse_tz (b2z (if tz <=? 0 then x2b else x2d))
    (fmt_d 2 (Z.abs (Z.quot (Z.quot tz 60) 60)) ++ fmt_d 2 (Z.abs (Z.rem (Z.quot tz 60) 60))) = Some tz.
Proof.
  intros tz (m & -> & R). rewrite Z.quot_mul by lia.
  assert (Q : Z.abs (Z.quot m 60) = Z.abs m / 60).
  { rewrite <- Z.quot_abs by lia. change (Z.abs 60) with 60. apply Z.quot_div_nonneg; lia. }
  assert (M : Z.abs (Z.rem m 60) = Z.abs m mod 60).
  { rewrite <- Z.rem_abs by lia. change (Z.abs 60) with 60. apply Z.rem_mod_nonneg; lia. }
  rewrite Q, M. assert (RH : 0 <= Z.abs m / 60 <= 99) by lia. assert (RM : 0 <= Z.abs m mod 60 <= 99) by lia.
  rewrite !fmt_d2 by lia. unfold parse_tz.
  destruct (m * 60 <=? 0) eqn:E.
  - change (b2z x2b) with 43. cbn [Z.eqb orb Pos.eqb]. rewrite take_d2 by lia. unfold d2 at 1.
    rewrite <- (app_nil_r (d2 (Z.abs m mod 60))). rewrite opt_d2 by lia. rewrite take_d2 by lia. unfold d2 at 1. cbn [skip].
    rewrite !undec_d2 by lia. f_equal. lia.
  - change (b2z x2d) with 45. cbn [Z.eqb orb Pos.eqb]. rewrite take_d2 by lia. unfold d2 at 1.
    rewrite <- (app_nil_r (d2 (Z.abs m mod 60))). rewrite opt_d2 by lia. rewrite take_d2 by lia. unfold d2 at 1. cbn [skip].
    rewrite !undec_d2 by lia. f_equal. lia.
Qed.

Lemma parse_iso_text : forall d, iso_range d ->
  parse_iso (iso_text (dt_year d) (dt_month d) (dt_day d) (dt_hour d) (dt_min d) (dt_sec d) (dt_tz d)) = Ok (iso_fields d).
Proof.
  intros [y mo dd h mi c wd un tz] R. unfold iso_range, iso_fields in *. cbn [dt_year dt_month dt_day dt_hour dt_min dt_sec dt_tz] in *.
  destruct R as (R1 & R2 & R3 & R4 & R5 & R6 & R7). pose proof (parse_tz_text tz R7) as TZ.
  unfold iso_text. set (z := fmt_d 2 (Z.abs (Z.quot (Z.quot tz 60) 60)) ++ fmt_d 2 (Z.abs (Z.rem (Z.quot tz 60) 60))) in *.
  rewrite fmt_d4 by lia. rewrite !fmt_d2 by lia. unfold parse_iso. rewrite skip_d4 by lia. rewrite take_d4 by lia.
  unfold d4 at 1. rewrite opt_d2 by lia. rewrite take_d2 by lia. unfold d2 at 1. rewrite opt_d2 by lia. rewrite take_d2 by lia.
  unfold d2 at 1. cbn [app]. change (is_char 84 x54) with true. cbn [orb].
  assert (T : parse_time (d2 h ++ x3a :: d2 mi ++ x3a :: d2 c ++ (if tz <=? 0 then x2b else x2d) :: z) = (h, mi, c, tz)).
  { unfold parse_time. rewrite take_d2 by lia. unfold d2 at 1. cbn [opt_char]. change (is_char 58 x3a) with true. cbv iota.
    rewrite take_d2 by lia. unfold d2 at 1. cbn [opt_char]. change (is_char 58 x3a) with true. cbv iota.
    rewrite take_d2 by lia. unfold d2 at 1.
    replace (is_char 46 (if tz <=? 0 then x2b else x2d)) with false by (destruct (tz <=? 0); reflexivity).
    rewrite TZ. rewrite !undec_d2 by lia. reflexivity. }
  rewrite T. rewrite !undec_d2, undec_d4 by lia. reflexivity.
Qed.

(** Lengths *)
Lemma dec_aux_len : forall fuel n acc k, 0 <= n < 10 ^ k -> 1 <= k -> zlen (dec_aux fuel n acc) <= k + zlen acc.
Proof.
  induction fuel as [|f IH]; intros n acc k H K; cbn [dec_aux]; destruct (n <? 10) eqn:E; rewrite ?zlen_cons; try lia.
  assert (K2 : 2 <= k).
  { destruct (Z.eq_dec k 1) as [->|]; [|lia]. change (10 ^ 1) with 10 in H. lia. }
  assert (P : 10 ^ k = 10 * 10 ^ (k - 1)) by (rewrite <- Z.pow_succ_r by lia; f_equal; lia).
  specialize (IH (n / 10) (digit (n mod 10) :: acc) (k - 1)). rewrite zlen_cons in IH. cut (zlen (dec_aux f (n / 10) (digit (n mod 10) :: acc)) <= k - 1 + (1 + zlen acc)); [lia|]. apply IH; lia.
Qed.
Lemma dec_len : forall n k, 0 <= n < 10 ^ k -> 1 <= k -> zlen (dec n) <= k.
Proof. intros n k H K. unfold dec. pose proof (dec_aux_len (Z.to_nat (Z.log2 n)) n [] k H K). rewrite zlen_nil in *. lia. Qed.
Lemma pad0_len : forall w s, zlen (pad0 w s) = Z.max (Z.of_nat w) (zlen s).
Proof. intros. unfold pad0, zlen. rewrite app_length, repeat_length. lia. Qed.
Lemma fmt_d_len : forall w n k, - 10 ^ k < n < 10 ^ k -> 1 <= k -> (1 <= w)%nat -> Z.of_nat w <= k ->
  zlen (fmt_d w n) <= k + (if n <? 0 then 1 else 0).
Proof.
  intros w n k H K W WK. unfold fmt_d. destruct (n <? 0) eqn:E; rewrite ?zlen_cons, pad0_len.
  - pose proof (dec_len (- n) k ltac:(lia) K). lia.
  - pose proof (dec_len n k ltac:(lia) K). lia.
Qed.

Lemma iso_text_len : forall y mo d h mi c tz, in_s16 y -> in_s8 mo -> in_s8 d -> in_s8 h -> in_s8 mi -> in_s8 c -> in_s32 tz ->
  zlen (iso_text y mo d h mi c tz) <= 38.
Proof.
  intros y mo d h mi c tz Y MO D H MI C TZ. unfold in_s16, in_s8, in_s32 in *.
  change (2 ^ 15) with 32768 in *. change (2 ^ 7) with 128 in *. change (2 ^ 31) with 2147483648 in *.
  unfold iso_text. rewrite !zlen_app, !zlen_cons, !zlen_nil.
  assert (B : forall n, - 128 <= n < 128 -> zlen (fmt_d 2 n) <= 4).
  { intros n N. pose proof (fmt_d_len 2 n 3 ltac:(change (10 ^ 3) with 1000; lia) ltac:(lia) ltac:(lia) ltac:(lia)). destruct (n <? 0); lia. }
  pose proof (B mo MO). pose proof (B d D). pose proof (B h H). pose proof (B mi MI). pose proof (B c C).
  pose proof (fmt_d_len 4 y 5 ltac:(change (10 ^ 5) with 100000; lia) ltac:(lia) ltac:(lia) ltac:(lia)) as LY.
  assert (Q1 : Z.abs (Z.quot (Z.quot tz 60) 60) = Z.abs tz / 60 / 60).
  { rewrite <- Z.quot_abs by lia. rewrite <- (Z.quot_abs tz 60) by lia. change (Z.abs 60) with 60.
    rewrite (Z.quot_div_nonneg (Z.abs tz) 60) by lia. rewrite Z.quot_div_nonneg by lia. reflexivity. }
  assert (Q2 : Z.abs (Z.rem (Z.quot tz 60) 60) = (Z.abs tz / 60) mod 60).
  { rewrite <- Z.rem_abs by lia. rewrite <- (Z.quot_abs tz 60) by lia. change (Z.abs 60) with 60.
    rewrite Z.quot_div_nonneg by lia. rewrite Z.rem_mod_nonneg by lia. reflexivity. }
  rewrite Q1, Q2.
  pose proof (fmt_d_len 2 (Z.abs tz / 60 / 60) 6 ltac:(change (10 ^ 6) with 1000000; lia) ltac:(lia) ltac:(lia) ltac:(lia)) as L1.
  pose proof (fmt_d_len 2 ((Z.abs tz / 60) mod 60) 2 ltac:(change (10 ^ 2) with 100; lia) ltac:(lia) ltac:(lia) ltac:(lia)) as L2.
  replace (Z.abs tz / 60 / 60 <? 0) with false in L1 by lia. replace ((Z.abs tz / 60) mod 60 <? 0) with false in L2 by lia.
  destruct (y <? 0); lia.
Qed.
