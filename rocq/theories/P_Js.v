(** C75: the JavaScript implementation reads what the C++ library sends. *)
From Coq Require Import Lia Permutation.
From Verif Require Import Base Value Unicode M_Marshal S_Value S_Wire M_Js S_Js L_Base L_JsText L_Js.

(** ** C75 *)
Theorem C75_js_reads_response_partial : forall max_buffer ver v,
  2 ^ 30 <= max_buffer -> modern ver -> wf ver v -> js_fits ver v ->
  exists wire, sent ver (response_calls v) = Ok wire /\
  exists j, js_parse max_buffer wire = JOk (JResponse j) /\ same at_unix v j.
Proof. intros. apply response_read; auto. Qed.
Print Assumptions C75_js_reads_response_partial.

Theorem C75_js_reads_call_partial : forall max_buffer ver name params,
  2 ^ 30 <= max_buffer -> modern ver -> name_ok name -> text_fits name -> Forall (fun v => wf ver v /\ js_fits ver v) params ->
  exists wire, sent ver (call_calls name params) = Ok wire /\
  exists n js, js_parse max_buffer wire = JOk (JCall n js) /\ same_text name n /\ Forall2 (same at_unix) params js.
Proof. intros. apply call_read; auto. Qed.
Print Assumptions C75_js_reads_call_partial.

Theorem C75_js_reads_fault_partial : forall max_buffer ver code msg,
  2 ^ 30 <= max_buffer -> modern ver -> in_s32 code -> small (blen msg) -> text_fits msg ->
  exists wire, sent ver [PFault code msg] = Ok wire /\
  exists m, js_parse max_buffer wire = JFault (JNum code) (JStr m) /\ same_text msg m.
Proof. intros. apply fault_read; auto. Qed.
Print Assumptions C75_js_reads_fault_partial.

(** A value with every kind of content that fits, with a character of each length. *)
Definition letters : list Z := [269; 97; 8364; 128512].
Definition js_sample : value :=
  VStruct
    [ (str "a", VInt (-129)); (str "b", VArray [VNull; VBool true; VString (flat_map utf8_char letters); VArray []]);
      (str "c", VDateTime (mkDT 2024 2 29 23 59 58 4 1709251198 3600));
      (str "d", VSecret (VBinaryRef 3 [str "ab"; str "c"])); (str "e", VDouble 4607182418800017408);
      (flat_map utf8_char letters, VStruct []) ].

Lemma ascii_fits : forall c, 0 <= c < 128 -> text_fits [z2b c].
Proof.
  intros c C. split.
  - exists [c]. exists [c]. split; [constructor; [unfold uchar; lia|constructor]|]. cbn [flat_map]. unfold utf8_char, utf16_char.
    destruct (Z.ltb_spec c 128); [|lia]. destruct (Z.ltb_spec c 65536); [|lia]. split; reflexivity.
  - intros (r & E). discriminate E.
Qed.
Lemma letters_fit : text_fits (flat_map utf8_char letters).
Proof.
  split.
  - eexists. exists letters. split; [|split; reflexivity]. unfold letters, uchar. repeat constructor; lia.
  - intros (r & E). discriminate E.
Qed.

Example js_sample_fits : wf (mkVer 3 0) js_sample /\ js_fits (mkVer 3 0) js_sample.
Proof.
  split.
  - cbn. unfold small, in_s64, in_u64, has_null, dt_ok; cbn.
    repeat (split || (intros ? ? H; cbn in H; intuition congruence)); try lia; try exact I; try reflexivity;
      try (left; lia); try (exists 4; lia).
    all: intros k' x H; repeat (destruct H as [H|H]; [inversion H; subst; reflexivity|]); contradiction.
  - pose proof letters_fit as LF. unfold js_sample. cbn [js_fits dt_unix].
    repeat match goal with
    | |- _ /\ _ => split
    | |- True => exact I
    | |- text_fits (flat_map _ _) => exact LF
    | |- text_fits (str ?x) => exact (ascii_fits (b2z (hd x00 (str x))) ltac:(vm_compute; split; congruence))
    | |- _ <> str _ => vm_compute; congruence
    end; try lia.
    + unfold int_fits. cbn. lia.
    + intros [X _]. vm_compute in X. discriminate.
Qed.

Example C75_sample : exists wire j, sent (mkVer 3 0) (response_calls js_sample) = Ok wire /\ js_parse (2 ^ 32) wire = JOk (JResponse j) /\
  j = JObj [ ([97], JNum (-129)); ([98], JArr [JNull; JBool true; JStr [269; 97; 8364; 55357; 56832]; JArr []]);
             ([99], JDate (Some 1709251198000)); ([100], JBytes (str "abc")); ([101], JFloat 4607182418800017408);
             ([269; 97; 8364; 55357; 56832], JObj []) ].
Proof. do 2 eexists. split; [vm_compute; reflexivity|]. split; [vm_compute; reflexivity|]. reflexivity. Qed.

(** What the fit leaves out is read wrong. *)
(** Dates before 1970: minus one second in version 2 is read as the year 2106; in version 3 the date is invalid. *)
Theorem C75_early_date_refuted :
  (exists wire, sent (mkVer 2 1) (response_calls (VDateTime (mkDT 1969 12 31 23 59 59 3 (-1) 0))) = Ok wire /\
     js_parse (2 ^ 32) wire = JOk (JResponse (JDate (Some (1000 * (2 ^ 32 - 1)))))) /\
  (exists wire, sent (mkVer 3 0) (response_calls (VDateTime (mkDT 1969 12 31 23 59 59 3 (-1) 0))) = Ok wire /\
     js_parse (2 ^ 32) wire = JOk (JResponse (JDate None))).
Proof. split; eexists; (split; [vm_compute; reflexivity|]; vm_compute; reflexivity). Qed.
Print Assumptions C75_early_date_refuted.

(** Subnormal doubles are read as zero. *)
Theorem C75_subnormal_refuted : forall d, 0 < d < 2 ^ 52 ->
  exists wire, sent (mkVer 3 0) (response_calls (VDouble d)) = Ok wire /\ js_parse (2 ^ 32) wire = JOk (JResponse (JFloat 0)).
Proof.
  intros d D. exists (magic (mkVer 3 0) ++ data_type T_METHOD_RESPONSE 0 :: data_type T_DOUBLE 0 :: le_bytes 8 d). split.
  - unfold sent, response_calls. cbn [feed bin_run bin_pack]. cbn [app]. rewrite app_nil_r. reflexivity.
  - rewrite (parse_head (2 ^ 32) (mkVer 3 0)) by (try (split; [right; reflexivity|cbn; lia]); auto).
    cbn [T_FAULT T_METHOD_RESPONSE Z.eqb Pos.eqb]. unfold parse_one.
    rewrite (parse_tag (2 ^ 32) (mkVer 3 0)) by (try (split; [right; reflexivity|cbn; lia]); unfold T_DOUBLE; lia).
    cbn [T_INT T_STRING T_STRUCT T_ARRAY T_BOOL T_DATETIME T_DOUBLE T_BINARY T_INTP8 T_INTN8 Z.eqb Pos.eqb].
    destruct (frac_le d ltac:(unfold in_u64; lia)) as (b0 & b1 & b2 & b3 & b4 & b5 & b6 & b7 & EL & R0 & R1 & R2 & R3 & R4 & R5 & R6 & R7 & ED).
    assert (b0 = 0) by lia. assert (b1 < 16) by lia. subst b0.
    unfold get_double. assert (L8 : zlen (le_bytes 8 d) = 8) by (rewrite zlen_le_bytes; reflexivity). rewrite blen_zlen, L8. cbn [Z.ltb Z.compare Pos.compare Pos.compare_cont].
    rewrite <- (app_nil_r (le_bytes 8 d)), ztake_app', zdrop_app' by auto. rewrite EL. cbn [rev app map]. rewrite !b2z_z2b_small by lia.
    unfold double_of. cbv zeta. change (Z.odd (0 / 128)) with false. cbv iota. change (0 mod 128 * 16) with 0. rewrite (Z.div_small b1 16) by lia. reflexivity.
Qed.
Print Assumptions C75_subnormal_refuted.

(** A byte order mark at the start of a string is lost. *)
Theorem C75_mark_refuted : exists wire s,
  s = utf8_char 65279 ++ str "a" /\ utf8 s /\ sent (mkVer 2 1) (response_calls (VString s)) = Ok wire /\
  js_parse (2 ^ 32) wire = JOk (JResponse (JStr [97])) /\ ~ same_text s [97].
Proof.
  do 2 eexists. split; [reflexivity|]. split; [|split; [vm_compute; reflexivity|split; [vm_compute; reflexivity|]]].
  - eexists. exists [65279; 97]. split; [unfold uchar; repeat constructor; lia|]. split; reflexivity.
  - intro S. apply encode_text in S. vm_compute in S. discriminate.
Qed.
Print Assumptions C75_mark_refuted.

(** A member called [__proto__] is lost. *)
Theorem C75_proto_refuted : exists wire v,
  v = VStruct [(str "__proto__", VInt 1)] /\ wf (mkVer 2 1) v /\ sent (mkVer 2 1) (response_calls v) = Ok wire /\
  js_parse (2 ^ 32) wire = JOk (JResponse (JObj [])) /\ ~ same at_unix v (JObj []).
Proof.
  do 2 eexists. split; [reflexivity|]. split; [|split; [vm_compute; reflexivity|split; [vm_compute; reflexivity|]]].
  - cbn. unfold small, in_s64. repeat split; try lia.
  - intro S. inversion S as [| | | | | | | | | |? m' m'' F2 PM| |]; subst. inversion F2; subst. apply Permutation_length in PM. discriminate.
Qed.
Print Assumptions C75_proto_refuted.

(** Version 3: an integer of 54 bits loses its sign. *)
Theorem C75_int_refuted :
  exists wire, sent (mkVer 3 0) (response_calls (VInt (- (2 ^ 52 + 1)))) = Ok wire /\ js_parse (2 ^ 32) wire = JOk (JResponse (JNum (2 ^ 52))).
Proof. eexists. split; [vm_compute; reflexivity|]. vm_compute. reflexivity. Qed.
Print Assumptions C75_int_refuted.

(** Version 1: negative integers are read as positive ones. *)
Theorem C75_version1_refuted : forall z, - 2 ^ 31 <= z < 0 ->
  exists wire, sent (mkVer 1 0) (response_calls (VInt z)) = Ok wire /\ js_parse (2 ^ 32) wire = JOk (JResponse (JNum (z + 2 ^ 31))).
Proof.
  intros z Z. exists (magic (mkVer 1 0) ++ data_type T_METHOD_RESPONSE 0 :: data_type T_INT 4 :: le_bytes 4 (z + 2 ^ 32)).
  assert (US : u32 z = z + 2 ^ 32).
  { unfold u32, unsigned. replace z with (z + 2 ^ 32 + (-1) * 2 ^ 32) at 1 by lia. rewrite Z.mod_add by lia. apply Z.mod_small. lia. }
  split.
  - unfold sent, response_calls. cbn [feed bin_run bin_pack]. unfold pack_int. cbn [v_major Z.ltb Z.compare Pos.compare Pos.compare_cont].
    unfold pack_num, get_number_type, get_number_size. cbn [v_major Z.ltb Z.compare Pos.compare Pos.compare_cont]. cbv zeta.
    rewrite s32_id by (unfold in_s32; lia).
    assert (M : forall k, 0 <= k -> Z.land z (mask k) =? 0 = false) by (intros; apply L_Bits.mask_ge; lia).
    rewrite !M by lia. change (Z.to_nat (3 + 1)) with 4%nat. rewrite US.
    assert (UU : u64 (z + 2 ^ 32) = z + 2 ^ 32) by (apply u64_id; unfold in_u64; lia). rewrite UU. rewrite app_nil_r, <- app_assoc. reflexivity.
  - unfold js_parse, magic. cbn [app get_byte jbind v_major v_minor].
    change (negb ((b2z xca =? 202) && (b2z x11 =? 17))) with false. cbv iota.
    change (b2z (data_type T_METHOD_RESPONSE 0) / 8) with T_METHOD_RESPONSE. cbn [T_FAULT T_METHOD_RESPONSE Z.eqb Pos.eqb].
    change (b2z (z2b 1)) with 1. unfold parse_one. cbn [parse_value List.length get_byte jbind].
    change (b2z (data_type T_INT 4) / 8) with T_INT. change (b2z (data_type T_INT 4) mod 8) with 4.
    cbn [T_INT T_STRING T_STRUCT T_ARRAY T_BOOL Z.eqb Pos.eqb].
    assert (LV : le_val (le_bytes 4 (z + 2 ^ 32)) = z + 2 ^ 32) by (rewrite le_val_le_bytes; change (256 ^ Z.of_nat 4) with (2 ^ 32); apply Z.mod_small; lia).
    rewrite <- (app_nil_r (le_bytes 4 (z + 2 ^ 32))), get_int_at by (rewrite ?zlen_le_bytes; lia). cbn [jbind]. rewrite LV.
    destruct (Z.leb_spec 2147483648 (z + 2 ^ 32)); [|lia]. do 3 f_equal. lia.
Qed.
Print Assumptions C75_version1_refuted.
