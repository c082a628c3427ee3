(** C77: the JavaScript implementation refuses the beginning of a message. *)
From Coq Require Import Lia.
From Verif Require Import Base Value Unicode M_Marshal S_Value S_Wire M_Js S_Js L_Base L_Bits L_RoundTrip L_Js L_JsCut P_Js.

(** ** C77 *)
Theorem C77_cut_response_partial : forall max_buffer ver v wire n,
  modern ver -> wf ver v -> ~ ends_text v -> sent ver (response_calls v) = Ok wire -> 0 <= n < zlen wire ->
  js_parse max_buffer (ztake n wire) = JThrow.
Proof. intros max_buffer ver v wire n HV. apply response_cut; auto. Qed.
Print Assumptions C77_cut_response_partial.

Example C77_sample : wf (mkVer 3 0) js_sample /\ ~ ends_text js_sample.
Proof. split; [apply js_sample_fits|]. vm_compute. tauto. Qed.

(** Bytes after the end are refused too. *)
Theorem C77_trailing_response : forall max_buffer ver v wire c r,
  modern ver -> wf ver v -> sent ver (response_calls v) = Ok wire -> js_parse max_buffer (wire ++ c :: r) = JThrow.
Proof. intros max_buffer ver v wire c r HV. apply response_trailing; auto. Qed.
Print Assumptions C77_trailing_response.

(** A response that ends with a text is accepted wherever it is cut in this text; NUL characters take the place of what is missing. *)
Theorem C77_text_refuted : forall max_buffer ver s n,
  2 ^ 30 <= max_buffer -> modern ver -> small (blen s) -> 0 <= n < blen s ->
  exists wire, sent ver (response_calls (VString s)) = Ok wire /\
  js_parse max_buffer (ztake (zlen wire - blen s + n) wire) = JOk (JResponse (JStr (td_decode (ztake n s ++ repeat x00 (Z.to_nat (blen s - n)))))).
Proof.
  intros max_buffer ver s n B HV S N. unfold small in S.
  assert (W : wf ver (VString s)) by exact S.
  destruct (num_at ver HV T_STRING (blen s) (blen s) ltac:(lia) eq_refl) as (i & w & EP & I & L & G).
  assert (EW : L_Js.wire ver (VString s) = data_type T_STRING i :: w ++ s).
  { unfold L_Js.wire. cbn [feed]. rewrite (bin_one ver (PString s) (pack_string ver s)) by reflexivity. cbn [fst]. unfold pack_string. rewrite EP. reflexivity. }
  exists (magic ver ++ data_type T_METHOD_RESPONSE 0 :: L_Js.wire ver (VString s)). split; [apply (response_wire (2 ^ 30)); auto|]. rewrite EW.
  set (h := data_type T_STRING i :: w).
  assert (EQ : magic ver ++ data_type T_METHOD_RESPONSE 0 :: data_type T_STRING i :: w ++ s = (magic ver ++ data_type T_METHOD_RESPONSE 0 :: h) ++ s)
    by (unfold h; rewrite <- app_assoc; reflexivity).
  rewrite EQ. set (hd := magic ver ++ data_type T_METHOD_RESPONSE 0 :: h) in *.
  replace (ztake (zlen (hd ++ s) - blen s + n) (hd ++ s)) with (hd ++ ztake n s).
  2:{ rewrite zlen_app, (blen_zlen s). unfold ztake. replace (Z.to_nat (zlen hd + zlen s - zlen s + n)) with (List.length hd + Z.to_nat n)%nat by (unfold zlen; lia).
      rewrite firstn_app_2. reflexivity. }
  unfold hd. rewrite <- app_assoc. cbn [app]. rewrite parse_head by auto. cbn [T_FAULT T_METHOD_RESPONSE Z.eqb Pos.eqb]. unfold parse_one, h. cbn [app].
  rewrite parse_tag by (auto; unfold T_STRING; lia). cbn [T_STRING Z.eqb Pos.eqb]. rewrite G. cbn [jbind].
  unfold decode_utf8. destruct (Z.ltb_spec max_buffer (blen s)); [lia|]. cbn [jbind].
  assert (LT : zlen (ztake n s) = n) by (apply zlen_ztake; rewrite blen_zlen in N; lia).
  assert (T1 : ztake (blen s) (ztake n s) = ztake n s) by (unfold ztake at 1; apply firstn_all2; unfold zlen in LT; lia).
  assert (D1 : zdrop (blen s) (ztake n s) = []) by (unfold zdrop; apply skipn_all2; unfold zlen in LT; lia).
  rewrite T1, D1, (blen_zlen (ztake n s)), LT. reflexivity.
Qed.
Print Assumptions C77_text_refuted.

(** "ab" cut after the "a". *)
Example C77_text_sample : exists wire, sent (mkVer 2 1) (response_calls (VString (str "ab"))) = Ok wire /\
  js_parse (2 ^ 32) (ztake (zlen wire - 1) wire) = JOk (JResponse (JStr [97; 0])).
Proof. eexists. split; [vm_compute; reflexivity|]. vm_compute. reflexivity. Qed.

(** A call cut after its first parameter is a call with one parameter; cut in its name it is a call of another method. *)
Theorem C77_call_refuted :
  (exists wire, sent (mkVer 2 1) (call_calls (str "m") [VInt 1; VInt 2]) = Ok wire /\ js_parse (2 ^ 32) (ztake (zlen wire - 2) wire) = JOk (JCall [109] [JNum 1])) /\
  (exists wire, sent (mkVer 2 1) (call_calls (str "mn") [VInt 1]) = Ok wire /\ js_parse (2 ^ 32) (ztake (zlen wire - 3) wire) = JOk (JCall [109; 0] [])).
Proof. split; eexists; (split; [vm_compute; reflexivity|]; vm_compute; reflexivity). Qed.
Print Assumptions C77_call_refuted.
