(** Numbers, zigzag and date-times on the wire. *)
From Coq Require Import Lia.
From Verif Require Import Base Value M_Marshal M_BinUnmarshal S_Value L_Base.
Ltac Zify.zify_post_hook ::= Z.div_mod_to_equations.

(** Checking a predicate on all integers of a range by computation. *)
Definition all_below (n : Z) (P : Z -> bool) : bool :=
  forallb (fun i => P (Z.of_nat i)) (seq 0 (Z.to_nat n)).

Lemma all_below_spec : forall n P, all_below n P = true -> forall z, 0 <= z < n -> P z = true.
Proof.
  intros n P H z Hz. unfold all_below in H. rewrite forallb_forall in H.
  specialize (H (Z.to_nat z)). rewrite Z2Nat.id in H by lia. apply H.
  apply in_seq. lia.
Qed.

(** Tag bytes. *)
Lemma data_type_spec : forall t i, 0 <= t < 32 -> 0 <= i < 8 ->
  Z.shiftr (b2z (data_type t i)) 3 = t /\ Z.land (b2z (data_type t i)) 7 = i.
Proof.
  assert (H : all_below 32 (fun t => all_below 8 (fun i =>
    (Z.shiftr (b2z (data_type t i)) 3 =? t) && (Z.land (b2z (data_type t i)) 7 =? i))) = true)
    by (vm_compute; reflexivity).
  intros t i Ht Hi. pose proof (all_below_spec _ _ H t Ht) as H1. cbv beta in H1.
  pose proof (all_below_spec _ _ H1 i Hi) as H2. cbv beta in H2.
  apply andb_true_iff in H2. destruct H2 as [A B]. apply Z.eqb_eq in A, B. auto.
Qed.

(** Number types. *)
Lemma mask_lt : forall n k, 0 <= k -> (Z.land n (mask k) =? 0) = true <-> 0 <= n < 2 ^ k.
Proof. intros. rewrite Z.eqb_eq. apply land_mask_0. auto. Qed.

Lemma mask_ge : forall n k, 0 <= k -> (Z.land n (mask k) =? 0) = false <-> ~ (0 <= n < 2 ^ k).
Proof.
  intros n k Hk. pose proof (mask_lt n k Hk). destruct (Z.land n (mask k) =? 0); split; intros; try congruence.
  - exfalso. apply H0. apply H. reflexivity.
  - intro. apply H in H1. discriminate.
Qed.

Lemma number_type_range : forall v n, 2 <= v_major v -> 0 <= get_number_type v n <= 7.
Proof.
  intros v n H. unfold get_number_type. destruct (v_major v <? 2) eqn:E; [lia|].
  repeat match goal with |- context [if ?x then _ else _] => destruct x end; lia.
Qed.

(** The chosen size is the least number of bytes that can hold the number (8 for numbers with the top bit set). *)
Lemma number_type_spec : forall v n, 2 <= v_major v -> in_s64 n ->
  let k := get_number_type v n + 1 in
  (0 <= n -> n < 2 ^ (8 * k)) /\ (n < 0 -> k = 8) /\
  (0 <= n -> forall j, 0 <= j < k -> 1 <= j -> 2 ^ (8 * j) <= n).
Proof.
  intros v n H I. unfold get_number_type. destruct (v_major v <? 2) eqn:E; [lia|].
  unfold in_s64 in I.
  destruct (Z.land n (mask 8) =? 0) eqn:E1; [apply mask_lt in E1; [|lia]|apply mask_ge in E1; [|lia]].
  { cbv zeta. repeat split; intros; lia. }
  destruct (Z.land n (mask 16) =? 0) eqn:E2; [apply mask_lt in E2; [|lia]|apply mask_ge in E2; [|lia]].
  { cbv zeta. repeat split; intros; try lia. assert (j = 1) by lia. subst j. lia. }
  destruct (Z.land n (mask 24) =? 0) eqn:E3; [apply mask_lt in E3; [|lia]|apply mask_ge in E3; [|lia]].
  { cbv zeta. repeat split; intros; try lia. assert (j = 1 \/ j = 2) as [->| ->] by lia; lia. }
  destruct (Z.land n (mask 32) =? 0) eqn:E4; [apply mask_lt in E4; [|lia]|apply mask_ge in E4; [|lia]].
  { cbv zeta. repeat split; intros; try lia. assert (j = 1 \/ j = 2 \/ j = 3) as [->|[->| ->]] by lia; lia. }
  destruct (Z.land n (mask 40) =? 0) eqn:E5; [apply mask_lt in E5; [|lia]|apply mask_ge in E5; [|lia]].
  { cbv zeta. repeat split; intros; try lia.
    assert (j = 1 \/ j = 2 \/ j = 3 \/ j = 4) as [->|[->|[->| ->]]] by lia; lia. }
  destruct (Z.land n (mask 48) =? 0) eqn:E6; [apply mask_lt in E6; [|lia]|apply mask_ge in E6; [|lia]].
  { cbv zeta. repeat split; intros; try lia.
    assert (j = 1 \/ j = 2 \/ j = 3 \/ j = 4 \/ j = 5) as [->|[->|[->|[->| ->]]]] by lia; lia. }
  destruct (Z.land n (mask 56) =? 0) eqn:E7; [apply mask_lt in E7; [|lia]|apply mask_ge in E7; [|lia]].
  { cbv zeta. repeat split; intros; try lia.
    assert (j = 1 \/ j = 2 \/ j = 3 \/ j = 4 \/ j = 5 \/ j = 6) as [->|[->|[->|[->|[->| ->]]]]] by lia; lia. }
  cbv zeta. repeat split; intros; try lia.
  assert (j = 1 \/ j = 2 \/ j = 3 \/ j = 4 \/ j = 5 \/ j = 6 \/ j = 7)
    as [->|[->|[->|[->|[->|[->| ->]]]]]] by lia; lia.
Qed.

(** Reading back a number written by [pack_num]. *)
Lemma pack_num_decode : forall v tag n m, 2 <= v_major v -> in_s64 n -> u64 m = u64 n ->
  exists t p, pack_num v tag n m = data_type tag t :: p /\ 0 <= t <= 7 /\ zlen p = t + 1
              /\ get_int64 p = n.
Proof.
  intros v tag n m H I EM. unfold pack_num. cbv zeta.
  pose proof (number_type_range v n H) as R. pose proof (number_type_spec v n H I) as (S1 & S2 & _).
  set (t := get_number_type v n) in *.
  exists t, (le_bytes (Z.to_nat (get_number_size v t)) (u64 m)).
  assert (ES : get_number_size v t = t + 1).
  { unfold get_number_size. destruct (v_major v <? 2) eqn:E; [lia|reflexivity]. }
  rewrite ES. split; [reflexivity|]. split; [lia|].
  rewrite zlen_le_bytes. split; [lia|].
  unfold get_int64. rewrite le_val_le_bytes, EM. rewrite Z2Nat.id by lia.
  assert (EP : 256 ^ (t + 1) = 2 ^ (8 * (t + 1))).
  { change 256 with (2 ^ 8). rewrite <- Z.pow_mul_r by lia. reflexivity. }
  rewrite EP. unfold in_s64 in I.
  destruct (Z_lt_le_dec n 0) as [N|N].
  - assert (t = 7) by (specialize (S2 N); lia). subst t. rewrite H0.
    change (8 * (7 + 1)) with 64. unfold u64, unsigned. rewrite Z.mod_mod by lia.
    change (n mod 2 ^ 64) with (u64 n). apply s64_u64. exact I.
  - specialize (S1 N). unfold u64. rewrite unsigned_id by lia.
    rewrite Z.mod_small by lia. apply s64_id. exact I.
Qed.

(** Zigzag. *)
Lemma lxor_ones : forall x k, 0 <= k -> 0 <= x < 2 ^ k -> Z.lxor x (2 ^ k - 1) = 2 ^ k - 1 - x.
Proof.
  intros x k Hk Hx.
  assert (EO : 2 ^ k - 1 = Z.ones k) by (rewrite Z.ones_equiv; lia).
  rewrite EO.
  assert (L : Z.land x (Z.ones k) = x) by (rewrite Z.land_ones by lia; apply Z.mod_small; lia).
  rewrite Z.sub_nocarry_ldiff.
  - apply Z.bits_inj'. intros n Hn. rewrite Z.lxor_spec, Z.ldiff_spec.
    assert (T : Z.testbit x n = Z.testbit x n && Z.testbit (Z.ones k) n) by (rewrite <- Z.land_spec, L; reflexivity).
    destruct (Z.testbit x n); destruct (Z.testbit (Z.ones k) n); simpl in *; congruence.
  - apply Z.bits_inj'. intros n Hn. rewrite Z.ldiff_spec, Z.bits_0.
    assert (T : Z.testbit x n = Z.testbit x n && Z.testbit (Z.ones k) n) by (rewrite <- Z.land_spec, L; reflexivity).
    destruct (Z.testbit x n); destruct (Z.testbit (Z.ones k) n); simpl in *; congruence.
Qed.

Lemma zigzag_encode_spec : forall n, in_s64 n ->
  zigzag_encode n = if n <? 0 then - 2 * n - 1 else 2 * n.
Proof.
  intros n I. unfold in_s64 in I. unfold zigzag_encode.
  rewrite Z.shiftr_div_pow2, Z.shiftl_mul_pow2 by lia.
  destruct (n <? 0) eqn:E.
  - assert (D : n / 2 ^ 63 = -1) by lia. rewrite D.
    change (u64 (-1)) with (2 ^ 64 - 1).
    rewrite lxor_ones; [|lia|apply unsigned_range; lia].
    unfold u64, unsigned. change (2 ^ 1) with 2. lia.
  - assert (D : n / 2 ^ 63 = 0) by lia. rewrite D. change (u64 0) with 0. rewrite Z.lxor_0_r.
    unfold u64, unsigned. change (2 ^ 1) with 2. lia.
Qed.

Lemma zigzag_range : forall n, in_s64 n -> in_u64 (zigzag_encode n).
Proof.
  intros n I. rewrite zigzag_encode_spec by auto. unfold in_s64, in_u64 in *.
  destruct (n <? 0) eqn:E; lia.
Qed.

Lemma zigzag_decode_u : forall s, in_s64 s ->
  zigzag_decode s = if Z.odd s then - (u64 s / 2) - 1 else u64 s / 2.
Proof.
  intros s I. unfold zigzag_decode. rewrite Z.shiftr_div_pow2 by lia. change (2 ^ 1) with 2.
  assert (L1 : Z.land s 1 = if Z.odd s then 1 else 0).
  { change 1 with (2 ^ 1 - 1) at 1. rewrite land_ones_mod by lia. change (2 ^ 1) with 2.
    apply Zmod_odd. }
  rewrite L1.
  pose proof (unsigned_range 64 s ltac:(lia)) as UR. fold u64 in UR.
  destruct (Z.odd s).
  - change (u64 (- (1))) with (2 ^ 64 - 1). rewrite lxor_ones by lia.
    replace (2 ^ 64 - 1 - u64 s / 2) with ((- (u64 s / 2) - 1) + 1 * 2 ^ 64) by lia.
    unfold s64, signed. rewrite Z.mod_add by lia. fold (signed 64 (- (u64 s / 2) - 1)).
    apply signed_id; [lia|]. change (64 - 1) with 63. lia.
  - change (u64 (- 0)) with 0. rewrite Z.lxor_0_r. apply s64_id. unfold in_s64. lia.
Qed.

Lemma zigzag_roundtrip : forall n, in_s64 n -> zigzag_decode (s64 (zigzag_encode n)) = n.
Proof.
  intros n I. pose proof (zigzag_range n I) as R.
  assert (S : in_s64 (s64 (zigzag_encode n))).
  { pose proof (signed_range 64 (zigzag_encode n) ltac:(lia)). exact H. }
  rewrite zigzag_decode_u by auto.
  assert (U : u64 (s64 (zigzag_encode n)) = zigzag_encode n).
  { unfold u64, s64, unsigned, signed. cbv zeta. unfold in_u64 in R.
    rewrite (Z.mod_small (zigzag_encode n)) by lia.
    destruct (zigzag_encode n <? 2 ^ (64 - 1)); [apply Z.mod_small; lia|].
    replace (zigzag_encode n - 2 ^ 64) with (zigzag_encode n + (-1) * 2 ^ 64) by lia.
    rewrite Z.mod_add by lia. apply Z.mod_small. lia. }
  rewrite U.
  assert (O : Z.odd (s64 (zigzag_encode n)) = (n <? 0)).
  { assert (OE : Z.odd (s64 (zigzag_encode n)) = Z.odd (zigzag_encode n)).
    { unfold s64, signed. cbv zeta. unfold in_u64 in R. rewrite (Z.mod_small (zigzag_encode n)) by lia.
      destruct (zigzag_encode n <? 2 ^ (64 - 1)); auto.
      change (2 ^ 64) with (2 * 2 ^ 63). rewrite Z.odd_sub, Z.odd_mul. simpl. apply xorb_false_r. }
    rewrite OE, zigzag_encode_spec by auto.
    destruct (n <? 0).
    - replace (-2 * n - 1) with (1 + 2 * (- n - 1)) by lia. rewrite Z.odd_add_mul_2. reflexivity.
    - rewrite Z.odd_mul. reflexivity. }
  rewrite O, zigzag_encode_spec by auto. destruct (n <? 0) eqn:E; lia.
Qed.

(** Negative numbers of protocol 2. *)
Lemma safe_abs_negate : forall n, in_s64 n -> n < 0 ->
  safe_negate (s64 (safe_abs n)) = n.
Proof.
  intros n I N. unfold in_s64 in I. unfold safe_abs. destruct (n <? 0) eqn:E; [|lia].
  assert (EA : u64 (u64 (Z.lnot n) + 1) = - n).
  { unfold u64, unsigned, Z.lnot, Z.pred.
    rewrite Z.mod_small by (rewrite Z.mod_small; lia). rewrite Z.mod_small; lia. }
  rewrite EA. unfold safe_negate.
  destruct (Z.eq_dec n (- 2 ^ 63)) as [->|NE].
  - reflexivity.
  - rewrite s64_id by (unfold in_s64; lia). destruct (- n =? - 2 ^ 63) eqn:X; lia.
Qed.

(** ** Date-times. *)
(** The five packed bytes; each is a function of few small fields, checked exhaustively. *)
Lemma dt_byte5 : forall wday sec, 0 <= wday < 8 -> 0 <= sec < 64 ->
  let c := s8 (b2z (z2b (Z.lor (Z.shiftl (Z.land sec 31) 3) (Z.land wday 7)))) in
  Z.land c 7 = wday /\ Z.shiftr (Z.land c 248) 3 = Z.land sec 31.
Proof.
  assert (H : all_below 8 (fun wday => all_below 64 (fun sec =>
    let c := s8 (b2z (z2b (Z.lor (Z.shiftl (Z.land sec 31) 3) (Z.land wday 7)))) in
    (Z.land c 7 =? wday) && (Z.shiftr (Z.land c 248) 3 =? Z.land sec 31))) = true)
    by (vm_compute; reflexivity).
  intros wday sec H1 H2. pose proof (all_below_spec _ _ (all_below_spec _ _ H _ H1) _ H2) as K.
  cbv zeta in *. apply andb_true_iff in K. destruct K as [A B]. apply Z.eqb_eq in A, B. auto.
Qed.

Lemma dt_byte6 : forall minute sec hour, 0 <= minute < 64 -> 0 <= sec < 64 -> 0 <= hour < 32 ->
  let c := s8 (b2z (z2b (Z.lor (Z.lor (Z.shiftl (Z.land minute 63) 1) (Z.shiftr (Z.land sec 32) 5))
                               (Z.shiftl (Z.land hour 1) 7)))) in
  Z.shiftl (Z.land c 1) 5 = Z.land sec 32 /\ Z.shiftr (Z.land c 126) 1 = minute
  /\ Z.shiftr (Z.land c 128) 7 = Z.land hour 1.
Proof.
  assert (H : all_below 64 (fun minute => all_below 64 (fun sec => all_below 32 (fun hour =>
    let c := s8 (b2z (z2b (Z.lor (Z.lor (Z.shiftl (Z.land minute 63) 1) (Z.shiftr (Z.land sec 32) 5))
                               (Z.shiftl (Z.land hour 1) 7)))) in
    (Z.shiftl (Z.land c 1) 5 =? Z.land sec 32) && (Z.shiftr (Z.land c 126) 1 =? minute)
    && (Z.shiftr (Z.land c 128) 7 =? Z.land hour 1)))) = true)
    by (vm_compute; reflexivity).
  intros m s h H1 H2 H3.
  pose proof (all_below_spec _ _ (all_below_spec _ _ (all_below_spec _ _ H _ H1) _ H2) _ H3) as K.
  cbv zeta in *. apply andb_true_iff in K. destruct K as [K C]. apply andb_true_iff in K.
  destruct K as [A B]. apply Z.eqb_eq in A, B, C. auto.
Qed.

Lemma dt_byte7 : forall hour day, 0 <= hour < 32 -> 0 <= day < 32 ->
  let c := s8 (b2z (z2b (Z.lor (Z.shiftr (Z.land hour 30) 1) (Z.shiftl (Z.land day 15) 4)))) in
  Z.shiftl (Z.land c 15) 1 = Z.land hour 30 /\ Z.shiftr (Z.land c 240) 4 = Z.land day 15.
Proof.
  assert (H : all_below 32 (fun hour => all_below 32 (fun day =>
    let c := s8 (b2z (z2b (Z.lor (Z.shiftr (Z.land hour 30) 1) (Z.shiftl (Z.land day 15) 4)))) in
    (Z.shiftl (Z.land c 15) 1 =? Z.land hour 30) && (Z.shiftr (Z.land c 240) 4 =? Z.land day 15))) = true)
    by (vm_compute; reflexivity).
  intros h d H1 H2. pose proof (all_below_spec _ _ (all_below_spec _ _ H _ H1) _ H2) as K.
  cbv zeta in *. apply andb_true_iff in K. destruct K as [A B]. apply Z.eqb_eq in A, B. auto.
Qed.

Lemma dt_byte8 : forall day month year, 0 <= day < 32 -> 0 <= month < 16 -> 0 <= year < 2048 ->
  let c := s8 (b2z (z2b (Z.lor (Z.lor (Z.shiftr (Z.land day 31) 4) (Z.shiftl (Z.land month 15) 1))
                               (Z.shiftl (Z.land year 7) 5)))) in
  Z.shiftl (Z.land c 1) 4 = Z.land day 16 /\ Z.shiftr (Z.land c 30) 1 = month
  /\ Z.shiftr (Z.land c 224) 5 = Z.land year 7.
Proof.
  assert (H : all_below 32 (fun day => all_below 16 (fun month => all_below 8 (fun y7 =>
    let c := s8 (b2z (z2b (Z.lor (Z.lor (Z.shiftr (Z.land day 31) 4) (Z.shiftl (Z.land month 15) 1))
                               (Z.shiftl y7 5)))) in
    (Z.shiftl (Z.land c 1) 4 =? Z.land day 16) && (Z.shiftr (Z.land c 30) 1 =? month)
    && (Z.shiftr (Z.land c 224) 5 =? y7)))) = true)
    by (vm_compute; reflexivity).
  intros d m y H1 H2 H3.
  assert (Y : 0 <= Z.land y 7 < 8).
  { change 7 with (2 ^ 3 - 1). rewrite land_ones_mod by lia. apply Z.mod_pos_bound. lia. }
  pose proof (all_below_spec _ _ (all_below_spec _ _ (all_below_spec _ _ H _ H1) _ H2) _ Y) as K.
  cbv zeta in *. apply andb_true_iff in K. destruct K as [K C]. apply andb_true_iff in K.
  destruct K as [A B]. apply Z.eqb_eq in A, B, C. auto.
Qed.

Lemma dt_byte9 : forall year, 0 <= year < 1024 ->
  Z.shiftl (s8 (b2z (z2b (Z.shiftr (Z.land year 2040) 3)))) 3 = Z.land year 2040.
Proof.
  assert (H : all_below 1024 (fun year =>
    Z.shiftl (s8 (b2z (z2b (Z.shiftr (Z.land year 2040) 3)))) 3 =? Z.land year 2040) = true)
    by (vm_compute; reflexivity).
  intros y H1. apply Z.eqb_eq. exact (all_below_spec _ _ H _ H1).
Qed.

Lemma split_fields : forall x, 0 <= x < 2048 ->
  (Z.lor (Z.land x 32) (Z.land x 31) = x \/ 64 <= x)
  /\ (Z.lor (Z.land x 16) (Z.land x 15) = x \/ 32 <= x)
  /\ (Z.lor (Z.land x 30) (Z.land x 1) = x \/ 32 <= x)
  /\ Z.lor (Z.land x 2040) (Z.land x 7) = x.
Proof.
  assert (H : all_below 2048 (fun x =>
    ((Z.lor (Z.land x 32) (Z.land x 31) =? x) || (64 <=? x))
    && ((Z.lor (Z.land x 16) (Z.land x 15) =? x) || (32 <=? x))
    && ((Z.lor (Z.land x 30) (Z.land x 1) =? x) || (32 <=? x))
    && (Z.lor (Z.land x 2040) (Z.land x 7) =? x)) = true) by (vm_compute; reflexivity).
  intros x Hx. pose proof (all_below_spec _ _ H _ Hx) as K. cbv beta in K.
  rewrite !andb_true_iff, !orb_true_iff, !Z.eqb_eq, !Z.leb_le in K. intuition.
Qed.

Lemma dt_fields_tail : forall tz unix wday sec minute hour day month year,
  0 <= wday < 8 -> 0 <= sec < 64 -> 0 <= minute < 64 -> 0 <= hour < 32 -> 0 <= day < 32 ->
  0 <= month < 16 -> 0 <= year < 1024 ->
  match dt_tail wday sec minute hour day month year with
  | [d5; d6; d7; d8; d9] => dt_fields tz unix d5 d6 d7 d8 d9 = mkDT year month day hour minute sec wday unix tz
  | _ => False
  end.
Proof.
  intros tz unix wday sec minute hour day month year H1 H2 H3 H4 H5 H6 H7.
  unfold dt_tail, dt_fields. cbv zeta.
  destruct (dt_byte5 wday sec) as [A1 A2]; try lia.
  destruct (dt_byte6 minute sec hour) as (B1 & B2 & B3); try lia.
  destruct (dt_byte7 hour day) as [C1 C2]; try lia.
  destruct (dt_byte8 day month year) as (D1 & D2 & D3); try lia.
  pose proof (dt_byte9 year H7) as E1.
  cbv zeta in *.
  rewrite A1, A2, B1, B2, B3, C1, C2, D1, D2, D3, E1.
  destruct (split_fields sec) as ([S1|S1] & _ & _ & _); try lia.
  destruct (split_fields day) as (_ & [S2|S2] & _ & _); try lia.
  destruct (split_fields hour) as (_ & _ & [S3|S3] & _); try lia.
  destruct (split_fields year) as (_ & _ & _ & S4); try lia.
  rewrite S1, S2, S3, S4.
  unfold u16, u8. rewrite !unsigned_id by lia. reflexivity.
Qed.

Lemma land_small : forall x k, 0 <= k -> 0 <= x < 2 ^ k -> Z.land x (2 ^ k - 1) = x.
Proof. intros. rewrite land_ones_mod by lia. apply Z.mod_small. lia. Qed.

Lemma datetime_roundtrip : forall v d, (v_major v = 2 \/ v_major v = 3) -> dt_ok (unix_bits v) d ->
  exists p, pack_datetime v d = Some (data_type T_DATETIME 0 :: p)
            /\ zlen p = (if 2 <? v_major v then 14 else 10)
            /\ (forall w, v_major w = v_major v -> decode_datetime w p = Some d).
Proof.
  intros v [Y M D h m s wd ux tz] HV (H1 & H2 & H3 & H4 & H5 & H6 & H7 & H8 & q & HQ & HT).
  cbn [dt_year dt_month dt_day dt_hour dt_min dt_sec dt_wday dt_unix dt_tz] in *. subst tz.
  unfold pack_datetime. cbn [dt_year dt_month dt_day dt_hour dt_min dt_sec dt_wday dt_unix dt_tz]. cbv zeta.
  assert (EY : (if Y <=? 1600 then 0 else Z.land (Y - 1600) 2047) = Y - 1600).
  { destruct (Y <=? 1600) eqn:E; [lia|]. apply (land_small (Y - 1600) 11); lia. }
  rewrite EY.
  change 7 with (2 ^ 3 - 1). change 63 with (2 ^ 6 - 1). change 31 with (2 ^ 5 - 1). change 15 with (2 ^ 4 - 1).
  rewrite (land_small wd 3), (land_small s 6), (land_small m 6), (land_small h 5), (land_small D 5),
    (land_small M 4) by lia.
  change (2 ^ 4 - 1) with 15. change (2 ^ 6 - 1) with 63. change (2 ^ 5 - 1) with 31. change (2 ^ 3 - 1) with 7.
  assert (EQ : Z.quot (Z.quot (q * 900) 60) 15 = q).
  { replace (q * 900) with (q * 15 * 60) by lia. rewrite Z.quot_mul by lia. apply Z.quot_mul. lia. }
  rewrite EQ.
  pose proof (fun tz ux => dt_fields_tail tz ux wd s m h D M (Y - 1600)) as FT.
  destruct (dt_tail wd s m h D M (Y - 1600)) as [|d5 [|d6 [|d7 [|d8 [|d9 [|]]]]]] eqn:ET;
    try discriminate ET.
  assert (FT' : forall tz ux, dt_fields tz ux d5 d6 d7 d8 d9 = mkDT (Y - 1600) M D h m s wd ux tz)
    by (intros; apply FT; lia).
  assert (TZ : s8 (b2z (z2b q)) = q).
  { rewrite b2z_z2b. change (q mod 256) with (u8 q). unfold s8, u8. rewrite signed_unsigned by lia.
    apply signed_id; lia. }
  assert (FIN : forall unix, 
    (let f := dt_fields (s8 (b2z (z2b q))) unix d5 d6 d7 d8 d9 in
     let zero := (dt_year f =? 0) && (dt_month f =? 0) && (dt_day f =? 0) && (dt_hour f =? 0)
                && (dt_min f =? 0) && (dt_sec f =? 0) in
     let y := if zero then dt_year f else u16 (dt_year f + 1600) in
     mkDT (s16 y) (s8 (dt_month f)) (s8 (dt_day f)) (s8 (dt_hour f)) (s8 (dt_min f)) (s8 (dt_sec f))
         (s8 (dt_wday f)) (dt_unix f) (dt_tz f * 15 * 60)) = mkDT Y M D h m s wd unix (q * 900)).
  { intro unix. cbv zeta. rewrite FT', TZ.
    cbn [dt_year dt_month dt_day dt_hour dt_min dt_sec dt_wday dt_unix dt_tz].
    assert (EM : (M =? 0) = false) by lia. rewrite EM, andb_false_r. cbn [andb].
    rewrite !s8_id by (unfold in_s8; lia).
    replace (Y - 1600 + 1600) with Y by lia.
    unfold u16. rewrite unsigned_id by lia. rewrite s16_id by (unfold in_s16; lia).
    f_equal. lia. }
  unfold unix_bits in H8.
  destruct HV as [HV|HV]; rewrite HV in *;
    [change (2 <? 2) with false in *; change (2 =? 3) with false in *
    |change (2 <? 3) with true in *; change (3 =? 3) with true in *]; cbv iota in *.
  - (* version 2 *)
    change (32 - 1) with 31 in H8.
    assert (EU : (ux =? - 2 ^ 63) = false) by lia. rewrite EU.
    assert (EA : (Z.land (if 0 <? ux then ux else - ux) (mask 32) =? 0) = true).
    { apply mask_lt; [lia|]. destruct (0 <? ux) eqn:X; lia. }
    rewrite EA. rewrite (s32_id ux) by (unfold in_s32; lia).
    eexists. split; [reflexivity|]. split; [reflexivity|].
    intros w Hw. unfold decode_datetime. rewrite Hw. change (2 <? 2) with false. change (2 <? 3) with true. cbv iota.
    assert (GI : get_int32 (le_bytes 4 (u32 ux)) = ux).
    { unfold get_int32. rewrite le_val_le_bytes.
      change (256 ^ Z.of_nat 4) with (2 ^ 32). unfold u32, unsigned. rewrite Z.mod_mod by lia.
      change (ux mod 2 ^ 32) with (u32 ux). apply s32_u32. unfold in_s32. lia. }
    cbn [le_bytes app] in GI |- *. rewrite GI. f_equal. apply FIN.
  - (* version 3 *)
    change (64 - 1) with 63 in H8.
    eexists. split; [reflexivity|]. split; [reflexivity|].
    intros w Hw. unfold decode_datetime. rewrite Hw. change (2 <? 2) with false. change (2 <? 3) with true. cbv iota.
    assert (GI : get_int64 (le_bytes 8 (u64 ux)) = ux).
    { unfold get_int64.
      rewrite le_val_le_bytes.
      change (256 ^ Z.of_nat 8) with (2 ^ 64). unfold u64, unsigned. rewrite Z.mod_mod by lia.
      change (ux mod 2 ^ 64) with (u64 ux). apply s64_u64. unfold in_s64. lia. }
    cbn [le_bytes app] in GI |- *. rewrite GI. f_equal. apply FIN.
Qed.
