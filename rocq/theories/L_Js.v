(** Lemmas: what JavaScript reads from the messages of the C++ library. *)
From Coq Require Import Lia Permutation.
From Verif Require Import Base Value Unicode M_Marshal M_BinUnmarshal S_Value S_Wire M_Js S_Js L_Base L_Bits L_RoundTrip L_JsText.
Ltac Zify.zify_post_hook ::= Z.div_mod_to_equations.

(** ** Numbers *)
Lemma rnd_id : forall n, Z.abs n <= 2 ^ 53 -> rnd n = n.
Proof. intros n H. unfold rnd. cbv zeta. apply Z.leb_le in H. rewrite H. reflexivity. Qed.

Lemma get_int_gen : forall p acc f rest, 0 <= acc -> 0 <= f -> acc + f * le_val p <= 2 ^ 53 ->
  get_int_from (List.length p) acc f (p ++ rest) = JOk (acc + f * le_val p, rest).
Proof.
  induction p as [|c p IH]; intros acc f rest A F H; cbn [le_val List.length get_int_from app].
  - do 2 f_equal. lia.
  - cbn [get_byte jbind]. pose proof (b2z_range c). pose proof (le_val_range p). cbn [le_val] in H.
    rewrite rnd_id by nia. rewrite IH by nia. do 2 f_equal. lia.
Qed.
Lemma get_int_at : forall n p rest, zlen p = n -> le_val p <= 2 ^ 53 -> get_int n (p ++ rest) = JOk (le_val p, rest).
Proof.
  intros n p rest L H. unfold get_int. subst n. unfold zlen. rewrite Nat2Z.id, get_int_gen by lia. do 2 f_equal. lia.
Qed.

Lemma int64_val : forall p n, zlen p <= 8 -> get_int64 p = n -> 0 <= n -> le_val p = n.
Proof.
  intros p n L E N. pose proof (le_val_range p) as R. assert (P : 256 ^ zlen p <= 256 ^ 8) by (apply Z.pow_le_mono_r; lia).
  change (256 ^ 8) with (2 ^ 64) in P. unfold get_int64, s64, signed in E. cbv zeta in E. rewrite Z.mod_small in E by lia.
  destruct (le_val p <? 2 ^ (64 - 1)); lia.
Qed.

(** ** Doubles *)
Lemma mantissa_spec : forall bit k b, 0 <= k -> mantissa_bits (2 ^ k * 2 ^ Z.of_nat bit) b bit = 2 ^ k * (b mod 2 ^ (Z.of_nat bit + 1)).
Proof.
  induction bit as [|bit IH]; intros k b K.
  - cbn [mantissa_bits]. change (2 ^ (Z.of_nat 0 + 1)) with 2. rewrite Zmod_odd. change (2 ^ Z.of_nat 0) with 1. destruct (Z.odd b); lia.
  - cbn [mantissa_bits]. replace (Z.of_nat (S bit)) with (Z.of_nat bit + 1) by lia.
    rewrite Z.pow_add_r by lia. change (2 ^ 1) with 2. replace (2 ^ k * (2 ^ Z.of_nat bit * 2) / 2) with (2 ^ k * 2 ^ Z.of_nat bit) by lia.
    rewrite IH by auto. rewrite (Z.pow_add_r 2 (Z.of_nat bit + 1) 1) by lia. change (2 ^ 1) with 2.
    rewrite (Z.pow_add_r 2 (Z.of_nat bit) 1) by lia. change (2 ^ 1) with 2.
    set (M := 2 ^ Z.of_nat bit * 2). assert (0 < M) by (unfold M; pose proof (Z.pow_pos_nonneg 2 (Z.of_nat bit)); lia).
    rewrite Z.rem_mul_r by lia. rewrite (Zmod_odd (b / M)). destruct (Z.odd (b / M)); lia.
Qed.
Lemma mantissa_byte : forall k m b, m = k + 7 -> 0 <= k -> 0 <= b < 256 -> mantissa_bits (2 ^ m) b 7 = 2 ^ k * b.
Proof.
  intros k m b -> K B. rewrite Z.pow_add_r by lia. change 7 with (Z.of_nat 7) at 1. rewrite mantissa_spec by auto.
  rewrite Z.mod_small; [reflexivity|]. change (2 ^ (Z.of_nat 7 + 1)) with 256. lia.
Qed.

Lemma frac_le : forall bits, in_u64 bits ->
  exists b0 b1 b2 b3 b4 b5 b6 b7, le_bytes 8 bits = [z2b b7; z2b b6; z2b b5; z2b b4; z2b b3; z2b b2; z2b b1; z2b b0] /\
    0 <= b0 < 256 /\ 0 <= b1 < 256 /\ 0 <= b2 < 256 /\ 0 <= b3 < 256 /\ 0 <= b4 < 256 /\ 0 <= b5 < 256 /\ 0 <= b6 < 256 /\ 0 <= b7 < 256 /\
    bits = b7 + 256 * (b6 + 256 * (b5 + 256 * (b4 + 256 * (b3 + 256 * (b2 + 256 * (b1 + 256 * b0)))))).
Proof.
  intros bits H. unfold in_u64 in H.
  assert (E : le_val (le_bytes 8 bits) = bits) by (rewrite le_val_le_bytes; apply Z.mod_small; exact H).
  destruct (le_bytes 8 bits) as [|c7 [|c6 [|c5 [|c4 [|c3 [|c2 [|c1 [|c0 [|x r]]]]]]]]] eqn:L;
    try (pose proof (le_bytes_length 8 bits) as X; rewrite L in X; discriminate X).
  exists (b2z c0), (b2z c1), (b2z c2), (b2z c3), (b2z c4), (b2z c5), (b2z c6), (b2z c7).
  split; [rewrite !z2b_b2z; reflexivity|]. do 8 (split; [apply b2z_range|]). cbn [le_val] in E. lia.
Qed.

Lemma double_same : forall date d, in_u64 d -> ~ subnormal d ->
  exists f, (forall rest, get_double (le_bytes 8 d ++ rest) = JOk (JFloat f, rest)) /\ same date (VDouble d) (JFloat f).
Proof.
  intros date d R NS. destruct (frac_le d R) as (b0 & b1 & b2 & b3 & b4 & b5 & b6 & b7 & EL & R0 & R1 & R2 & R3 & R4 & R5 & R6 & R7 & ED).
  assert (EM : mantissa_bits (2 ^ 51) b1 3 + mantissa_bits (2 ^ 47) b2 7 + mantissa_bits (2 ^ 39) b3 7 + mantissa_bits (2 ^ 31) b4 7
               + mantissa_bits (2 ^ 23) b5 7 + mantissa_bits (2 ^ 15) b6 7 + mantissa_bits (2 ^ 7) b7 7 = dbl_frac d).
  { pose proof (mantissa_spec 3 48 b1 ltac:(lia)) as X. change (2 ^ 48 * 2 ^ Z.of_nat 3) with (2 ^ 51) in X. rewrite X.
    rewrite (mantissa_byte 40 47 b2), (mantissa_byte 32 39 b3), (mantissa_byte 24 31 b4), (mantissa_byte 16 23 b5), (mantissa_byte 8 15 b6), (mantissa_byte 0 7 b7) by lia.
    change (2 ^ (Z.of_nat 3 + 1)) with 16. unfold dbl_frac. clear EL NS R X.
    change (2 ^ 48) with 281474976710656. change (2 ^ 40) with 1099511627776. change (2 ^ 32) with 4294967296. change (2 ^ 24) with 16777216.
    change (2 ^ 16) with 65536. change (2 ^ 8) with 256. change (2 ^ 0) with 1. change (2 ^ 52) with 4503599627370496. lia. }
  assert (EE : b0 mod 128 * 16 + b1 / 16 = dbl_exp d).
  { unfold dbl_exp. clear EM EL NS R. change (2 ^ 52) with 4503599627370496. lia. }
  assert (ES : d = (if Z.odd (b0 / 128) then 1 else 0) * 2 ^ 63 + dbl_exp d * 2 ^ 52 + dbl_frac d).
  { rewrite <- EE. unfold dbl_frac. replace (if Z.odd (b0 / 128) then 1 else 0) with (b0 / 128 mod 2) by (rewrite Zmod_odd; reflexivity).
    clear EM EE EL NS R. change (2 ^ 52) with 4503599627370496. change (2 ^ 63) with 9223372036854775808. lia. }
  assert (G : forall rest, get_double (le_bytes 8 d ++ rest) = JOk (double_of [b0; b1; b2; b3; b4; b5; b6; b7], rest)).
  { intro rest. unfold get_double. assert (L8 : zlen (le_bytes 8 d) = 8) by (rewrite zlen_le_bytes; reflexivity).
    destruct (Z.ltb_spec (blen (le_bytes 8 d ++ rest)) 8) as [X|X]; [rewrite blen_zlen, zlen_app in X; pose proof (zlen_nonneg _ rest); lia|].
    rewrite ztake_app', zdrop_app' by auto. rewrite EL. cbn [rev app map]. rewrite !b2z_z2b_small by lia. reflexivity. }
  unfold double_of in G. cbv zeta in G. rewrite EE, EM in G.
  destruct (Z.eqb_spec (dbl_exp d) 0) as [E0|E0].
  - assert (F0 : dbl_frac d = 0) by (destruct (Z.eq_dec (dbl_frac d) 0); auto; exfalso; apply NS; split; auto).
    rewrite E0, F0 in ES. eexists. split; [exact G|].
    replace ((if Z.odd (b0 / 128) then 1 else 0) * 2 ^ 63) with d by lia. constructor.
  - destruct (Z.eqb_spec (dbl_exp d) 2047) as [E7|E7].
    + eexists. split; [exact G|]. destruct (Z.eqb_spec (dbl_frac d) 0) as [F0|F0].
      * rewrite E7, F0 in ES. replace ((if Z.odd (b0 / 128) then 1 else 0) * 2 ^ 63 + 2047 * 2 ^ 52) with d by lia. constructor.
      * apply same_nan; [split; auto|]. vm_compute. split; [reflexivity|discriminate].
    + eexists. split; [exact G|]. rewrite <- ES. constructor.
Qed.

(** ** Values *)
Section Reads.
  Variable max_buffer : Z.
  Hypothesis HB : 2 ^ 30 <= max_buffer.
  Variable ver : version.
  Hypothesis HV : modern ver.

  Definition wire (v : value) : bytes := fst (bin_run ver (feed v)).
  Notation parse := (parse_value max_buffer).

  Definition reads (v : value) : Prop :=
    (1 <= List.length (wire v))%nat /\ snd (bin_run ver (feed v)) = None /\
    exists j, same at_unix v j /\ forall fuel rest, (List.length (wire v) <= fuel)%nat -> parse fuel (v_major ver) (wire v ++ rest) = JOk (j, rest).

  Lemma tag_type : forall t i, 0 <= t < 32 -> 0 <= i < 8 -> b2z (data_type t i) / 8 = t /\ b2z (data_type t i) mod 8 = i.
  Proof.
    intros t i T I. destruct (data_type_spec t i T I) as [A B]. rewrite Z.shiftr_div_pow2 in A by lia. change (2 ^ 3) with 8 in A.
    change 7 with (2 ^ 3 - 1) in B. rewrite land_ones_mod in B by lia. change (2 ^ 3) with 8 in B. auto.
  Qed.

  (** The first byte of a value. *)
  Lemma parse_tag : forall fuel t i d, 0 <= t < 32 -> 0 <= i < 8 ->
    parse (S fuel) (v_major ver) (data_type t i :: d) =
    (if t =? T_STRING then
       jbind (get_int (i + 1) d) (fun '(n, d) => jbind (decode_utf8 max_buffer n d) (fun '(s, d) => JOk (JStr s, d)))
     else if t =? T_STRUCT then
       jbind (get_int (i + 1) d) (fun '(n, d) => jbind (members_at max_buffer (parse fuel (v_major ver)) (S (List.length d)) n [] d) (fun '(m, d) => JOk (JObj m, d)))
     else if t =? T_ARRAY then
       jbind (get_int (i + 1) d) (fun '(n, d) => jbind (items_at (parse fuel (v_major ver)) (S (List.length d)) n d) (fun '(l, d) => JOk (JArr l, d)))
     else if t =? T_BOOL then if 1 <? i then JThrow else JOk (JBool (i =? 1), d)
     else if t =? T_INT then
       if v_major ver =? 3 then jbind (get_zigzag (i + 1) d) (fun '(z, d) => JOk (JNum z, d))
       else if i =? 0 then JThrow
       else jbind (get_int i d) (fun '(n, d) => JOk (JNum (if 2147483648 <=? n then n - 2147483648 else n), d))
     else if t =? T_DATETIME then
       jbind (get_byte d) (fun '(_, d) => jbind (get_int (if v_major ver =? 3 then 8 else 4) d) (fun '(ts, d) =>
       jbind (get_bytes 5 d) (fun '(_, d) => JOk (new_date (1000 * ts), d))))
     else if t =? T_DOUBLE then get_double d
     else if t =? T_BINARY then jbind (get_int (i + 1) d) (fun '(n, d) => jbind (get_bytes n d) (fun '(s, d) => JOk (JBytes s, d)))
     else if t =? T_INTP8 then jbind (get_int (i + 1) d) (fun '(n, d) => JOk (JNum n, d))
     else if t =? T_INTN8 then jbind (get_int (i + 1) d) (fun '(n, d) => JOk (JNum (- n), d))
     else if t =? T_NULL then JOk (JNull, d)
     else JThrow).
  Proof.
    intros fuel t i d T I. destruct (tag_type t i T I) as [A B]. cbn [parse_value get_byte jbind]. rewrite A, B.
    destruct HV as [M _]. assert (E1 : 1 <? v_major ver = true) by lia. rewrite E1.
    destruct (Z.eqb_spec (i + 1) 0); [lia|]. reflexivity.
  Qed.

  Lemma maj2 : 2 <= v_major ver. Proof. destruct HV as [[->| ->] _]; lia. Qed.

  (** A tag and a number up to 2^53. *)
  Lemma num_at : forall t n m, 0 <= n <= 2 ^ 53 -> u64 m = u64 n ->
    exists i p, pack_num ver t n m = data_type t i :: p /\ 0 <= i < 8 /\ zlen p = i + 1 /\ forall rest, get_int (i + 1) (p ++ rest) = JOk (n, rest).
  Proof.
    intros t n m N E. destruct (pack_num_decode ver t n m maj2 ltac:(unfold in_s64; lia) E) as (i & p & EP & I & L & G).
    exists i, p. split; [auto|]. split; [lia|]. split; [auto|]. intro rest.
    pose proof (int64_val p n ltac:(lia) G ltac:(lia)) as EV. rewrite get_int_at by lia. rewrite EV. reflexivity.
  Qed.

  Lemma reads_int : forall z, in_s64 z -> int_fits ver z -> reads (VInt z).
  Proof.
    intros z R F. unfold reads, wire. cbn [feed]. rewrite (bin_one ver (PInt z) (pack_int ver z)) by reflexivity. cbn [fst snd].
    unfold pack_int, int_fits in *. destruct (Z.eqb_spec (v_major ver) 3) as [E|E].
    - destruct (Z.ltb_spec 2 (v_major ver)); [|lia]. cbv zeta. pose proof (zigzag_encode_spec z R) as ZE.
      set (y := zigzag_encode z) in *. assert (Y : 0 <= y <= 2 ^ 53) by (destruct (Z.ltb_spec z 0); lia).
      assert (S1 : s64 y = y) by (apply s64_id; unfold in_s64; lia). rewrite S1.
      destruct (num_at T_INT y y Y eq_refl) as (i & p & EP & I & L & G). rewrite EP. split; [cbn; lia|]. split; [reflexivity|].
      exists (JNum z). split; [constructor|]. intros [|fuel] rest LF; [cbn in LF; lia|]. cbn [app]. rewrite parse_tag by (unfold T_INT; lia).
      cbn [T_INT T_STRING T_STRUCT T_ARRAY T_BOOL Z.eqb Pos.eqb]. rewrite E. cbn [Z.eqb Pos.eqb]. unfold get_zigzag. rewrite G. cbn [jbind].
      rewrite ZE. destruct (Z.ltb_spec z 0).
      + destruct (Z.eqb_spec ((-2 * z - 1) mod 2) 1); [|lia]. do 3 f_equal. lia.
      + destruct (Z.eqb_spec ((2 * z) mod 2) 1); [lia|]. do 3 f_equal. lia.
    - assert (EM : v_major ver = 2) by (destruct HV; lia). destruct (Z.ltb_spec 2 (v_major ver)); [lia|]. destruct (Z.ltb_spec 1 (v_major ver)); [|lia].
      destruct (Z.ltb_spec z 0) as [N|N].
      + assert (EA : safe_abs z = - z).
        { unfold safe_abs. destruct (Z.ltb_spec z 0); [|lia]. unfold Z.lnot. unfold in_s64 in R.
          assert (X : u64 (Z.pred (- z)) = - z - 1) by (unfold u64, unsigned; rewrite Z.mod_small; lia). rewrite X.
          replace (- z - 1 + 1) with (- z) by lia. apply u64_id. unfold in_u64. lia. }
        rewrite EA. rewrite (s64_id (- z)) by (unfold in_s64; lia).
        destruct (num_at T_INTN8 (- z) (- z) ltac:(lia) eq_refl) as (i & p & EP & I & L & G). rewrite EP. split; [cbn; lia|]. split; [reflexivity|].
        exists (JNum z). split; [constructor|]. intros [|fuel] rest LF; [cbn in LF; lia|]. cbn [app]. rewrite parse_tag by (unfold T_INTN8; lia).
        cbn [T_INT T_STRING T_STRUCT T_ARRAY T_BOOL T_DATETIME T_DOUBLE T_BINARY T_INTP8 T_INTN8 Z.eqb Pos.eqb]. rewrite G. cbn [jbind]. do 3 f_equal. lia.
      + destruct (num_at T_INTP8 z z ltac:(lia) eq_refl) as (i & p & EP & I & L & G). rewrite EP. split; [cbn; lia|]. split; [reflexivity|].
        exists (JNum z). split; [constructor|]. intros [|fuel] rest LF; [cbn in LF; lia|]. cbn [app]. rewrite parse_tag by (unfold T_INTP8; lia).
        cbn [T_INT T_STRING T_STRUCT T_ARRAY T_BOOL T_DATETIME T_DOUBLE T_BINARY T_INTP8 T_INTN8 Z.eqb Pos.eqb]. rewrite G. cbn [jbind]. reflexivity.
  Qed.

  Lemma utf8_at : forall s rest, small (blen s) -> decode_utf8 max_buffer (blen s) (s ++ rest) = JOk (td_decode s, rest).
  Proof.
    intros s rest S. unfold decode_utf8. unfold small in S. destruct (Z.ltb_spec max_buffer (blen s)); [lia|].
    rewrite (blen_zlen s), (blen_zlen (s ++ rest)), ztake_app, zdrop_app, zlen_app. pose proof (zlen_nonneg _ rest).
    replace (Z.to_nat (zlen s - (zlen s + zlen rest))) with 0%nat by lia. cbn [repeat]. rewrite app_nil_r. reflexivity.
  Qed.

  Lemma reads_text : forall s mk, small (blen s) -> text_fits s -> (mk = VString s \/ mk = VStringView s) -> reads mk.
  Proof.
    intros s mk S F K. assert (FE : feed mk = [PString s]) by (destruct K as [->| ->]; reflexivity).
    unfold reads, wire. rewrite FE. rewrite (bin_one ver (PString s) (pack_string ver s)) by reflexivity. cbn [fst snd]. unfold pack_string.
    destruct (num_at T_STRING (blen s) (blen s) ltac:(unfold small in S; lia) eq_refl) as (i & p & EP & I & L & G). rewrite EP.
    split; [cbn; lia|]. split; [reflexivity|]. exists (JStr (td_decode s)).
    split; [destruct K as [->| ->]; constructor; apply decode_text; auto|].
    intros [|fuel] rest LF; [cbn in LF; lia|]. cbn [app]. rewrite parse_tag by (unfold T_STRING; lia). cbn [T_STRING Z.eqb Pos.eqb].
    rewrite <- app_assoc, G. cbn [jbind]. rewrite utf8_at by auto. reflexivity.
  Qed.

  Lemma bytes_at : forall s rest, get_bytes (blen s) (s ++ rest) = JOk (s, rest).
  Proof.
    intros s rest. unfold get_bytes. rewrite (blen_zlen s), (blen_zlen (s ++ rest)), zlen_app. pose proof (zlen_nonneg _ rest).
    destruct (Z.ltb_spec (zlen s + zlen rest) (zlen s)); [lia|]. rewrite ztake_app, zdrop_app. reflexivity.
  Qed.

  Lemma reads_bytes : forall s mk, small (blen s) -> bin_run ver (feed mk) = (pack_num ver T_BINARY (blen s) (blen s) ++ s, None) ->
    same at_unix mk (JBytes s) -> reads mk.
  Proof.
    intros s mk S FE SM. unfold reads, wire. rewrite FE. cbn [fst snd].
    destruct (num_at T_BINARY (blen s) (blen s) ltac:(unfold small in S; lia) eq_refl) as (i & p & EP & I & L & G). rewrite EP.
    split; [cbn; lia|]. split; [reflexivity|]. exists (JBytes s). split; [auto|].
    intros [|fuel] rest LF; [cbn in LF; lia|]. cbn [app]. rewrite parse_tag by (unfold T_BINARY; lia).
    cbn [T_INT T_STRING T_STRUCT T_ARRAY T_BOOL T_DATETIME T_DOUBLE T_BINARY T_INTP8 T_INTN8 Z.eqb Pos.eqb].
    rewrite <- app_assoc, G. cbn [jbind]. rewrite bytes_at. reflexivity.
  Qed.

  Lemma reads_date : forall d, dt_ok (unix_bits ver) d -> 0 <= dt_unix d <= 8640000000000 -> reads (VDateTime d).
  Proof.
    intros d OK U. unfold reads, wire. cbn [feed].
    assert (UB : dt_unix d < 2 ^ (unix_bits ver - 1)) by apply OK.
    assert (ND : new_date (1000 * dt_unix d) = JDate (Some (1000 * dt_unix d))).
    { unfold new_date. destruct (Z.leb_spec (Z.abs (1000 * dt_unix d)) 8640000000000000); [reflexivity|lia]. }
    assert (X : exists tz k tail, bin_pack ver (PDateTime (dt_as_chars d)) = (data_type T_DATETIME 0 :: tz :: le_bytes k (dt_unix d) ++ tail, None)
               /\ blen tail = 5 /\ Z.of_nat k = (if v_major ver =? 3 then 8 else 4) /\ dt_unix d < 256 ^ Z.of_nat k).
    { unfold bin_pack, pack_datetime, unix_bits in *. cbv zeta. cbn [dt_as_chars dt_unix]. destruct (Z.eqb_spec (v_major ver) 3) as [E|E].
      - rewrite E. cbn [Z.ltb Z.compare Pos.compare Pos.compare_cont]. rewrite u64_id by (unfold in_u64; lia).
        do 3 eexists. split; [reflexivity|]. split; [reflexivity|]. split; [reflexivity|]. cbn. lia.
      - assert (EM : v_major ver = 2) by (destruct HV; lia). rewrite EM. cbn [Z.ltb Z.compare Pos.compare Pos.compare_cont].
        destruct (Z.eqb_spec (dt_unix d) (- 2 ^ 63)); [lia|].
        assert (M : Z.land (if 0 <? dt_unix d then dt_unix d else - dt_unix d) (mask 32) =? 0 = true).
        { apply mask_lt; [lia|]. destruct (Z.ltb_spec 0 (dt_unix d)); lia. }
        rewrite M. rewrite s32_id, u32_id by (unfold in_s32, in_u32; lia).
        do 3 eexists. split; [reflexivity|]. split; [reflexivity|]. split; [reflexivity|]. cbn. lia. }
    destruct X as (tz & k & tail & EP & LT & KB & UK). rewrite (bin_one _ _ _ EP). cbn [fst snd].
    split; [cbn; lia|]. split; [reflexivity|]. exists (JDate (Some (1000 * dt_unix d))). split; [constructor; reflexivity|].
    intros [|fuel] rest LF; [cbn in LF; lia|]. cbn [app]. rewrite parse_tag by (unfold T_DATETIME; lia).
    cbn [T_INT T_STRING T_STRUCT T_ARRAY T_BOOL T_DATETIME T_DOUBLE T_BINARY T_INTP8 T_INTN8 Z.eqb Pos.eqb]. cbn [get_byte jbind].
    rewrite <- KB, <- app_assoc. assert (LV : le_val (le_bytes k (dt_unix d)) = dt_unix d) by (rewrite le_val_le_bytes; apply Z.mod_small; lia).
    rewrite get_int_at by (rewrite ?zlen_le_bytes; lia). cbn [jbind]. rewrite <- LT, bytes_at. cbn [jbind]. rewrite LV, ND. reflexivity.
  Qed.

  Lemma items_reads : forall l, Forall reads l ->
    exists js, Forall2 (same at_unix) l js /\
    forall fuel k rest, (forall x, In x l -> (List.length (wire x) <= fuel)%nat) -> (List.length l <= k)%nat ->
      items_at (parse fuel (v_major ver)) k (zlen l) (flat_map wire l ++ rest) = JOk (js, rest).
  Proof.
    induction 1 as [|v l (L & _ & j & S & P) _ (js & SS & PP)].
    - exists []. split; [constructor|]. intros fuel [|k] rest _ _; reflexivity.
    - exists (j :: js). split; [constructor; auto|]. intros fuel [|k] rest LF LK; [cbn in LK; lia|].
      cbn [items_at flat_map]. rewrite zlen_cons. pose proof (zlen_nonneg _ l). destruct (Z.eqb_spec (1 + zlen l) 0); [lia|].
      rewrite <- app_assoc, P by (apply LF; left; reflexivity). cbn [jbind]. replace (1 + zlen l - 1) with (zlen l) by lia.
      rewrite PP; [reflexivity| |cbn in LK; lia]. intros x IX. apply LF. right. auto.
  Qed.

  Definition member (kv : bytes * value) : bytes := z2b (blen (fst kv)) :: fst kv ++ wire (snd kv).
  Lemma members_reads : forall m,
    Forall (fun kv => 1 <= blen (fst kv) <= 255 /\ text_fits (fst kv) /\ fst kv <> str "__proto__" /\ reads (snd kv)) m -> increasing m ->
    exists js, Forall2 (fun kv kj => same_text (fst kv) (fst kj) /\ same at_unix (snd kv) (snd kj)) m js /\
    forall fuel k rest acc, (forall x, In x m -> (List.length (wire (snd x)) <= fuel)%nat) -> (List.length m <= k)%nat ->
      (forall kj, In kj acc -> exists s, same_text s (fst kj) /\ forall kv, In kv m -> s <> fst kv) ->
      members_at max_buffer (parse fuel (v_major ver)) k (zlen m) acc (flat_map member m ++ rest) = JOk (acc ++ js, rest).
  Proof.
    induction m as [|[name v] m IH]; intros F INC.
    - exists []. split; [constructor|]. intros fuel [|k] rest acc _ _ _; cbn; rewrite app_nil_r; reflexivity.
    - inversion F as [|? ? (LN & TF & NP & L & _ & j & S & P) F' EQ]; subst. cbn [fst snd] in *. cbn [increasing] in INC. destruct INC as [I1 I2].
      destruct (IH F' I2) as (js & SS & PP). pose proof (decode_text name TF) as ST.
      exists ((td_decode name, j) :: js). split; [constructor; auto|]. intros fuel [|k] rest acc LF LK AC; [cbn in LK; lia|].
      cbn [members_at flat_map member]. rewrite zlen_cons. pose proof (zlen_nonneg _ m). destruct (Z.eqb_spec (1 + zlen m) 0); [lia|].
      cbn [fst snd]. assert (GI : forall d, get_int 1 (z2b (blen name) :: d) = JOk (blen name, d)).
      { intro d. pose proof (get_int_at 1 [z2b (blen name)] d eq_refl) as X. cbn [app le_val] in X. rewrite b2z_z2b_small in X by lia.
        rewrite X by lia. do 2 f_equal. lia. }
      unfold member at 1. cbn [fst snd app]. rewrite GI. cbn [jbind]. rewrite <- !app_assoc, utf8_at by (unfold small; lia). cbn [jbind].
      rewrite P by (apply (LF (name, v)); left; reflexivity). cbn [jbind]. replace (1 + zlen m - 1) with (zlen m) by lia.
      assert (OS : obj_set (td_decode name) j acc = acc ++ [(td_decode name, j)]).
      { unfold obj_set. destruct (jstring_eqb (td_decode name) proto_name) eqn:E.
        { apply jstring_eqb_eq in E. exfalso. apply NP. rewrite <- (encode_text _ _ ST), E. vm_compute. reflexivity. }
        clear - AC ST. induction acc as [|[k' v'] acc IA]; [reflexivity|]. cbn [obj_put app].
        destruct (jstring_eqb (td_decode name) k') eqn:E.
        - apply jstring_eqb_eq in E. subst k'. destruct (AC _ (or_introl eq_refl)) as (s & SX & NE). exfalso. apply (NE _ (or_introl eq_refl)).
          cbn [fst] in *. apply (text_inj _ _ _ SX ST).
        - f_equal. apply IA. intros kj IK. apply AC. right. auto. }
      rewrite OS, PP; [rewrite <- app_assoc; reflexivity| |cbn in LK; lia|].
      { intros x IX. apply LF. right. auto. }
      intros kj IK. apply in_app_or in IK as [IK|[IK|[]]].
      + destruct (AC _ IK) as (s & SX & NE). exists s. split; [auto|]. intros kv IV. apply NE. right. auto.
      + subst kj. exists name. split; [exact ST|]. intros [k' x] IV. cbn [fst]. apply bytes_cmp_lt_neq. eapply I1. exact IV.
  Qed.

  Lemma run_items : forall l, Forall (fun v => snd (bin_run ver (feed v)) = None) l -> bin_run ver (flat_map feed l) = (flat_map wire l, None).
  Proof.
    induction 1 as [|v l E _ IH]; [reflexivity|]. cbn [flat_map]. rewrite bin_run_app. unfold wire at 1.
    destruct (bin_run ver (feed v)) as [o f]. cbn [fst snd] in *. subst f. rewrite IH. reflexivity.
  Qed.
  Lemma run_members : forall m, Forall (fun kv => 1 <= blen (fst kv) <= 255 /\ snd (bin_run ver (feed (snd kv))) = None) m ->
    bin_run ver (feed_members m) = (flat_map member m, None).
  Proof.
    unfold feed_members. induction 1 as [|[k v] m (L & E) _ IH]; [reflexivity|]. cbn [flat_map fst snd app] in *. cbn [bin_run bin_pack].
    destruct (Z.ltb_spec 255 (blen k)); [lia|]. destruct (Z.eqb_spec (blen k) 0); [lia|]. cbn [orb].
    rewrite bin_run_app. unfold member at 1, wire at 1. cbn [fst snd].
    destruct (bin_run ver (feed v)) as [o f]. cbn [fst snd] in *. subst f. rewrite IH. cbn [app]. rewrite <- app_assoc. reflexivity.
  Qed.

  Lemma len_in : forall A (f : A -> bytes) (l : list A) x, In x l -> (List.length (f x) <= List.length (flat_map f l))%nat.
  Proof.
    induction l as [|y l IH]; intros x []; cbn [flat_map]; rewrite app_length; [subst; lia|]. specialize (IH x H). lia.
  Qed.
  Lemma len_sum : forall A (f : A -> bytes) (l : list A), Forall (fun x => (1 <= List.length (f x))%nat) l -> (List.length l <= List.length (flat_map f l))%nat.
  Proof. induction 1 as [|x l L _ IH]; [cbn; lia|]. cbn [flat_map List.length]. rewrite app_length. lia. Qed.

  Lemma reads_all : forall v, wf ver v -> js_fits ver v -> reads v.
  Proof.
    induction v as [z|b| |d|s|s|s|n cs|d|m IH|l IH|v IH] using value_nested_ind; intros W F.
    - apply reads_int; auto.
    - unfold reads, wire. cbn. split; [lia|]. split; [reflexivity|]. exists (JBool b). split; [constructor|].
      intros [|fuel] rest LF; [cbn in LF; lia|]. cbn [app]. rewrite parse_tag by (unfold T_BOOL; destruct b; lia).
      destruct b; reflexivity.
    - cbn [wf] in W. unfold reads, wire. cbn [feed].
      assert (E : bin_pack ver PNull = ([data_type T_NULL 0], None)).
      { cbn [bin_pack]. unfold has_null in W. destruct HV as [M _].
        destruct (Z.ltb_spec (v_major ver) 2); [lia|]. destruct (Z.eqb_spec (v_major ver) 2); [|reflexivity].
        destruct (Z.ltb_spec (v_minor ver) 1); [lia|reflexivity]. }
      rewrite (bin_one _ _ _ E). cbn [fst snd]. split; [cbn; lia|]. split; [reflexivity|]. exists JNull. split; [constructor|].
      intros [|fuel] rest LF; [cbn in LF; lia|]. cbn [app]. rewrite parse_tag by (unfold T_NULL; lia). reflexivity.
    - cbn [wf js_fits] in *. unfold reads, wire. cbn [feed]. rewrite (bin_one ver (PDouble d) _ eq_refl). cbn [fst snd].
      destruct (double_same at_unix d W F) as (f & G & S). split; [cbn; lia|]. split; [reflexivity|]. exists (JFloat f). split; [auto|].
      intros [|fuel] rest LF; [cbn in LF; lia|]. cbn [app]. rewrite parse_tag by (unfold T_DOUBLE; lia).
      cbn [T_INT T_STRING T_STRUCT T_ARRAY T_BOOL T_DATETIME T_DOUBLE T_BINARY T_INTP8 T_INTN8 Z.eqb Pos.eqb]. apply G.
    - eapply reads_text; eauto.
    - eapply reads_text; eauto.
    - eapply reads_bytes; [exact W| |constructor]. apply bin_one. reflexivity.
    - destruct W as [-> W]. eapply reads_bytes; [exact W| |constructor]. apply bin_one. reflexivity.
    - apply reads_date; auto.
    - apply wf_struct in W. destruct W as (SM & INC & W). cbn [js_fits] in F.
      assert (FM : Forall (fun kv => 1 <= blen (fst kv) <= 255 /\ text_fits (fst kv) /\ fst kv <> str "__proto__" /\ reads (snd kv)) m).
      { clear SM INC. induction m as [|[k x] m IM]; [constructor|]. inversion IH; inversion W; subst. cbn [fst snd] in *. destruct F as (F1 & F2 & F3 & F4).
        constructor; [|apply IM; auto]. cbn [fst snd]. destruct H5 as [K1 K2]. split; [exact K1|]. split; [exact F1|]. split; [exact F2|]. apply H1; auto. }
      destruct (members_reads m FM INC) as (js & SS & PP).
      assert (EW : bin_run ver (feed (VStruct m)) = (pack_num ver T_STRUCT (zlen m) (zlen m) ++ flat_map member m, None)).
      { rewrite feed_struct. cbn [bin_run bin_pack]. unfold small in SM. rewrite u32_id by (unfold in_u32; lia). rewrite run_members; [reflexivity|].
        eapply Forall_impl; [|exact FM]. intros [k x] (A & _ & _ & _ & B & _). auto. }
      unfold reads, wire. rewrite EW. cbn [fst snd].
      destruct (num_at T_STRUCT (zlen m) (zlen m) ltac:(unfold small in SM; lia) eq_refl) as (i & p & EP & I & L & G). rewrite EP.
      split; [cbn; lia|]. split; [reflexivity|]. exists (JObj js). split; [econstructor; [exact SS|apply Permutation_refl]|].
      assert (LS : (List.length m <= List.length (flat_map member m))%nat) by (apply len_sum; apply Forall_forall; intros x _; cbn; lia).
      intros [|fuel] rest LF; [cbn in LF; lia|]. cbn [app List.length] in *. rewrite app_length in LF. rewrite parse_tag by (unfold T_STRUCT; lia).
      cbn [T_INT T_STRING T_STRUCT T_ARRAY T_BOOL T_DATETIME T_DOUBLE T_BINARY T_INTP8 T_INTN8 Z.eqb Pos.eqb].
      rewrite <- app_assoc, G. cbn [jbind]. rewrite PP; [reflexivity| | |intros kj []].
      + intros x IX. pose proof (len_in _ member m x IX) as X. unfold member in X at 1. cbn [List.length] in X. rewrite app_length in X. lia.
      + rewrite app_length. lia.
    - apply wf_array in W. destruct W as (SM & W). cbn [js_fits] in F.
      assert (FM : Forall reads l).
      { clear SM. induction l as [|x l IL]; [constructor|]. inversion IH; inversion W; subst. destruct F. constructor; auto. }
      destruct (items_reads l FM) as (js & SS & PP).
      assert (EW : bin_run ver (feed (VArray l)) = (pack_num ver T_ARRAY (zlen l) (zlen l) ++ flat_map wire l, None)).
      { rewrite feed_array. cbn [bin_run bin_pack]. unfold small in SM. rewrite u32_id by (unfold in_u32; lia). rewrite run_items; [reflexivity|].
        eapply Forall_impl; [|exact FM]. intros x (_ & A & _). auto. }
      unfold reads, wire. rewrite EW. cbn [fst snd].
      destruct (num_at T_ARRAY (zlen l) (zlen l) ltac:(unfold small in SM; lia) eq_refl) as (i & p & EP & I & L & G). rewrite EP.
      split; [cbn; lia|]. split; [reflexivity|]. exists (JArr js). split; [constructor; exact SS|].
      assert (LS : (List.length l <= List.length (flat_map wire l))%nat) by (apply len_sum; eapply Forall_impl; [|exact FM]; intros x (A & _); exact A).
      intros [|fuel] rest LF; [cbn in LF; lia|]. cbn [app List.length] in *. rewrite app_length in LF. rewrite parse_tag by (unfold T_ARRAY; lia).
      cbn [T_INT T_STRING T_STRUCT T_ARRAY T_BOOL T_DATETIME T_DOUBLE T_BINARY T_INTP8 T_INTN8 Z.eqb Pos.eqb].
      rewrite <- app_assoc, G. cbn [jbind]. rewrite PP; [reflexivity| |].
      + intros x IX. pose proof (len_in _ wire l x IX) as X. lia.
      + rewrite app_length. lia.
    - destruct (IH W F) as (L & E & j & S & P). split; [exact L|]. split; [exact E|]. exists j. split; [constructor; exact S|exact P].
  Qed.

  (** ** Messages *)
  Lemma parse_one_at : forall v, reads v -> exists j, same at_unix v j /\ forall rest, parse_one max_buffer (v_major ver) (wire v ++ rest) = JOk (j, rest).
  Proof.
    intros v (L & _ & j & S & P). exists j. split; [exact S|]. intro rest. unfold parse_one. apply P. rewrite app_length. lia.
  Qed.

  Lemma ver_bytes : b2z (z2b (v_major ver)) = v_major ver.
  Proof. destruct HV as [[-> | ->] _]; reflexivity. Qed.

  Lemma parse_head : forall t d, t = T_METHOD_CALL \/ t = T_METHOD_RESPONSE \/ t = T_FAULT ->
    js_parse max_buffer (magic ver ++ data_type t 0 :: d) =
    (if t =? T_FAULT then
      jbind (parse_one max_buffer (v_major ver) d) (fun '(num, d) => jbind (parse_one max_buffer (v_major ver) d) (fun '(msg, d) => JFault num msg))
    else if t =? T_METHOD_RESPONSE then
      jbind (parse_one max_buffer (v_major ver) d) (fun '(v, d) => match d with [] => JOk (JResponse v) | _ => JThrow end)
    else
      jbind (get_int 1 d) (fun '(n, d) => jbind (decode_utf8 max_buffer n d) (fun '(name, d) =>
      match name with
      | [] => JThrow
      | _ => jbind (rest_at (parse_one max_buffer (v_major ver)) (S (List.length d)) d) (fun l => JOk (JCall name l))
      end))).
  Proof.
    intros t d K. unfold js_parse, magic. cbn [app get_byte jbind]. rewrite ver_bytes. change (negb ((b2z xca =? 202) && (b2z x11 =? 17))) with false.
    cbv iota. destruct (tag_type t 0) as [A _]; [destruct K as [->|[->| ->]]; unfold T_METHOD_CALL, T_METHOD_RESPONSE, T_FAULT; lia|lia|].
    rewrite A. destruct K as [->|[->| ->]]; reflexivity.
  Qed.

  Lemma response_read : forall v, wf ver v -> js_fits ver v ->
    exists w, sent ver (response_calls v) = Ok w /\ exists j, js_parse max_buffer w = JOk (JResponse j) /\ same at_unix v j.
  Proof.
    intros v W F. destruct (reads_all v W F) as (L & E & J). destruct (parse_one_at v (conj L (conj E J))) as (j & S & P).
    exists (magic ver ++ data_type T_METHOD_RESPONSE 0 :: wire v).
    split; [|exists j; split; [|exact S]].
    - unfold sent, response_calls. cbn [bin_run bin_pack]. unfold wire. destruct (bin_run ver (feed v)) as [o f]. cbn [fst snd] in *. subst f.
      rewrite <- app_assoc. reflexivity.
    - rewrite parse_head by auto. cbn [T_FAULT T_METHOD_RESPONSE Z.eqb Pos.eqb]. rewrite <- (app_nil_r (wire v)), P. reflexivity.
  Qed.

  Lemma rest_reads : forall l, Forall reads l ->
    exists js, Forall2 (same at_unix) l js /\
    forall k, (List.length l <= k)%nat -> rest_at (parse_one max_buffer (v_major ver)) k (flat_map wire l) = JOk js.
  Proof.
    induction 1 as [|v l R _ (js & SS & PP)].
    - exists []. split; [constructor|]. intros [|k] _; reflexivity.
    - destruct (parse_one_at v R) as (j & S & P). exists (j :: js). split; [constructor; auto|].
      intros [|k] LK; [cbn in LK; lia|]. cbn [flat_map]. destruct R as (L & _).
      destruct (wire v ++ flat_map wire l) as [|c d] eqn:E; [destruct (wire v); [cbn in L; lia|discriminate]|].
      cbn [rest_at]. rewrite <- E, P. cbn [jbind]. rewrite PP by (cbn in LK; lia). reflexivity.
  Qed.

  Lemma call_read : forall name ps, name_ok name -> text_fits name -> Forall (fun v => wf ver v /\ js_fits ver v) ps ->
    exists w, sent ver (call_calls name ps) = Ok w /\
    exists n js, js_parse max_buffer w = JOk (JCall n js) /\ same_text name n /\ Forall2 (same at_unix) ps js.
  Proof.
    intros name ps NK TF F. unfold name_ok in NK.
    assert (R : Forall reads ps) by (eapply Forall_impl; [|exact F]; intros v [W FF]; apply reads_all; auto).
    destruct (rest_reads ps R) as (js & SS & PP). pose proof (decode_text name TF) as ST.
    exists (magic ver ++ data_type T_METHOD_CALL 0 :: z2b (blen name) :: name ++ flat_map wire ps).
    split; [|exists (td_decode name), js; split; [|split; [exact ST|exact SS]]].
    - unfold sent, call_calls. cbn [bin_run bin_pack].
      destruct (Z.ltb_spec 255 (blen name)); [lia|]. destruct (Z.eqb_spec (blen name) 0); [lia|]. cbn [orb].
      rewrite run_items by (eapply Forall_impl; [|exact R]; intros v (_ & E & _); exact E). cbn [app]. rewrite <- !app_assoc. reflexivity.
    - rewrite parse_head by auto. cbn [T_FAULT T_METHOD_RESPONSE T_METHOD_CALL Z.eqb Pos.eqb].
      pose proof (get_int_at 1 [z2b (blen name)] (name ++ flat_map wire ps) eq_refl) as X. cbn [app le_val] in X. rewrite b2z_z2b_small in X by lia.
      rewrite X by lia. cbn [jbind]. replace (blen name + 256 * 0) with (blen name) by lia. rewrite utf8_at by (unfold small; lia). cbn [jbind].
      destruct (td_decode name) as [|u us] eqn:ED.
      { exfalso. apply encode_text in ST. cbn in ST. subst name. cbn in NK. lia. }
      rewrite PP; [reflexivity|]. pose proof (len_sum _ wire ps) as LS. apply le_S. apply LS.
      eapply Forall_impl; [|exact R]. intros v (A & _). exact A.
  Qed.

  Lemma fault_read : forall code msg, in_s32 code -> small (blen msg) -> text_fits msg ->
    exists w, sent ver [PFault code msg] = Ok w /\ exists m, js_parse max_buffer w = JFault (JNum code) (JStr m) /\ same_text msg m.
  Proof.
    intros code msg C SM TF. unfold in_s32 in C.
    assert (RC : reads (VInt code)) by (apply reads_int; [unfold in_s64; lia|unfold int_fits; destruct (v_major ver =? 3); lia]).
    assert (RM : reads (VString msg)) by (eapply reads_text; eauto).
    destruct (parse_one_at _ RC) as (j1 & S1 & P1). destruct (parse_one_at _ RM) as (j2 & S2 & P2).
    inversion S1; subst. inversion S2; subst.
    exists (magic ver ++ data_type T_FAULT 0 :: wire (VInt code) ++ wire (VString msg)). split; [|exists j; split; [|auto]].
    - unfold sent, wire. cbn [bin_run bin_pack feed fst snd app]. rewrite !app_nil_r. reflexivity.
    - rewrite parse_head by auto. cbn [T_FAULT Z.eqb Pos.eqb]. rewrite P1. cbn [jbind]. rewrite <- (app_nil_r (wire (VString msg))), P2. reflexivity.
  Qed.
End Reads.
