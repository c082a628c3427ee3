(** C76: the C++ library reads the calls the JavaScript implementation sends. *)
From Coq Require Import Lia.
From Verif Require Import Base Value Unicode M_Marshal M_BinUnmarshal M_TreeBuilder S_Value S_Wire M_Js S_Js L_Base L_Bits L_RoundTrip L_JsText L_Js L_JsCall.

(** ** C76 *)
Theorem C76_js_calls_partial : forall log2_of clock ver req name params,
  ver = 2 \/ ver = 3 -> text_sends 1 255 name -> zlen params < 256 -> Forall (js_sends log2_of clock ver) params -> accepts req T_METHOD_CALL ->
  exists n vs, same_text n name /\ Forall2 (same (as_shown clock)) vs params /\
  forall pieces, concat pieces = serialize_call log2_of clock ver name params -> received_call None req pieces = Ok (n, VArray vs).
Proof. intros. apply call_js; auto. Qed.
Print Assumptions C76_js_calls_partial.

(** An engine in UTC that knows one second and the logarithm of one. *)
Definition one_clock (ms : Z) : shown_date := mkShown (- 60) 2024 1 29 4 23 59 58.
Definition one_log (d : Z) : Z := 0.
Definition js_params : list js :=
  [ JObj [([98], JNum (-129)); ([97], JArr [JNull; JBool true; JStr [97; 269; 8364; 55357; 56832]; JArr []]);
          ([269], JDate (Some 1709251198000))];
    JBytes (str "abc"); JFloat 4607182418800017408; JFloat (2047 * 2 ^ 52 + 7); JNum (2 ^ 53) ].

Lemma sends_text : forall lo hi us, Forall uchar us -> lo <= blen (flat_map utf8_char us) <= hi -> text_sends lo hi (flat_map utf16_char us).
Proof. intros lo hi us F L. exists (flat_map utf8_char us). split; [|exact L]. exists us. auto. Qed.

Example js_params_sends : Forall (js_sends one_log one_clock 2) js_params /\ text_sends 1 255 [109; 46; 110].
Proof.
  assert (T1 : text_sends 1 255 [98]) by (apply (sends_text 1 255 [98]); [repeat constructor; unfold uchar; lia|vm_compute; split; congruence]).
  assert (T2 : text_sends 1 255 [97]) by (apply (sends_text 1 255 [97]); [repeat constructor; unfold uchar; lia|vm_compute; split; congruence]).
  assert (T3 : text_sends 1 255 [269]) by (apply (sends_text 1 255 [269]); [repeat constructor; unfold uchar; lia|vm_compute; split; congruence]).
  assert (T4 : text_sends 0 (2 ^ 30 - 1) [97; 269; 8364; 55357; 56832])
    by (apply (sends_text 0 (2 ^ 30 - 1) [97; 269; 8364; 128512]); [repeat constructor; unfold uchar; lia|vm_compute; split; congruence]).
  split.
  - unfold js_params. repeat (apply Forall_cons; [cbn [js_sends]|]); [| | | | |apply Forall_nil].
    + split; [reflexivity|]. split; [repeat constructor; cbn; intuition congruence|].
      split; [exact T1|]. split; [split; [lia|intro; discriminate]|]. split; [exact T2|]. split; [split; [reflexivity|]; repeat (split; [exact I|]); split; [exact T4|]; split; [split; [reflexivity|exact I]|exact I]|].
      split; [exact T3|]. split; [|exact I]. unfold date_sends, one_clock. cbn [sh_offset sh_year sh_month sh_date sh_day sh_hours sh_minutes sh_seconds].
      split; [reflexivity|]. split; [lia|]. split; [lia|]. split; [exists (-4); lia|]. lia.
    + reflexivity.
    + split; [lia|]. intros _. split; [vm_compute; congruence|vm_compute; reflexivity].
    + split; [lia|]. intros [_ X]. exfalso. revert X. vm_compute. congruence.
    + split; [lia|intro; discriminate].
  - apply (sends_text 1 255 [109; 46; 110]); [repeat constructor; unfold uchar; lia|vm_compute; split; congruence].
Qed.

Example C76_sample : received_call None T_METHOD_CALL [serialize_call one_log one_clock 2 [109; 46; 110] js_params] =
  Ok (str "m.n",
      VArray [ VStruct [ (str "a", VArray [VNull; VBool true; VString (flat_map utf8_char [97; 269; 8364; 128512]); VArray []]); (str "b", VInt (-129));
                         (utf8_char 269, VDateTime (mkDT 2024 2 29 23 59 58 4 1709251198 (-3600))) ];
               VBinary (str "abc"); VDouble 4607182418800017408; VDouble (2047 * 2 ^ 52 + 1); VInt (2 ^ 53) ]).
Proof. vm_compute. reflexivity. Qed.

(** ** What the conditions leave out *)
(** Version 3: every negative integer arrives one less. *)
Theorem C76_negative_refuted : forall log2_of clock req name z,
  - 2 ^ 52 < z < 0 -> text_sends 1 255 name -> accepts req T_METHOD_CALL ->
  forall pieces, concat pieces = serialize_call log2_of clock 3 name [JNum z] ->
  received_call None req pieces = Ok (te_encode name, VArray [VInt (z - 1)]).
Proof.
  intros log2_of clock req name z R NM HA pieces EP. destruct (text_enc _ _ _ NM) as [S L].
  destruct (call_received None (mkVer 3 0) req (te_encode name) [VInt (z - 1)]) as (wire & E & RC); auto.
  { split; [right; reflexivity|cbn; lia]. }
  { constructor; [cbn [wfu wf]; unfold in_s64; lia|constructor]. }
  rewrite RC; [reflexivity|]. rewrite EP. unfold sent, call_calls in E. cbn [bin_run bin_pack flat_map feed app] in E.
  destruct (Z.ltb_spec 255 (blen (te_encode name))); [lia|]. destruct (Z.eqb_spec (blen (te_encode name)) 0); [lia|]. cbn [orb] in E.
  unfold pack_int in E. cbn [v_major Z.ltb Z.compare Pos.compare Pos.compare_cont] in E. cbv zeta in E.
  rewrite zigzag_encode_spec in E by (unfold in_s64; lia). destruct (Z.ltb_spec (z - 1) 0); [|lia].
  rewrite s64_id in E by (unfold in_s64; lia). rewrite pack_num_js in E by (cbn [v_major]; unfold T_INT; lia). inversion E as [EW].
  unfold serialize_call. cbn [serialize_value Z.eqb Pos.eqb flat_map]. unfold encode_zigzag. destruct (Z.ltb_spec z 0); [|lia].
  rewrite rnd_id by lia. replace (2 * - z + 1) with (-2 * (z - 1) - 1) by lia. reflexivity.
Qed.
Print Assumptions C76_negative_refuted.

(** 256 parameters are refused (the header of the array is taken for two bytes). *)
Theorem C76_many_refuted :
  received_call None T_METHOD_CALL [serialize_call one_log one_clock 2 [109] (repeat JNull 256)] = Err (StreamError "Unknown value type").
Proof. vm_compute. reflexivity. Qed.

(** An integer of 2^64 makes another type. *)
Theorem C76_large_refuted :
  received_call None T_METHOD_CALL [serialize_call one_log one_clock 2 [109] [JNum (2 ^ 64)]] = Err (StreamError "Unknown value type").
Proof. vm_compute. reflexivity. Qed.

(** The smallest normal doubles lose their fraction: 1.5 * 2^-972 arrives as 2^-972 although the logarithm is right. *)
Theorem C76_small_double_refuted : forall log2_of clock, log2_of (51 * 2 ^ 52 + 2 ^ 51) = - 972 ->
  received_call None T_METHOD_CALL [serialize_call log2_of clock 2 [109] [JFloat (51 * 2 ^ 52 + 2 ^ 51)]] = Ok (str "m", VArray [VDouble (51 * 2 ^ 52)]).
Proof.
  intros log2_of clock L. unfold serialize_call. cbn [serialize_value flat_map]. unfold encode_double. rewrite L. vm_compute. reflexivity.
Qed.
Print Assumptions C76_small_double_refuted.

(** An engine whose logarithm is 3 for the double just below 8 makes it the double just below 16. *)
Theorem C76_log_refuted : forall log2_of clock, log2_of (1026 * 2 ^ 52 - 1) = 3 ->
  received_call None T_METHOD_CALL [serialize_call log2_of clock 2 [109] [JFloat (1026 * 2 ^ 52 - 1)]] = Ok (str "m", VArray [VDouble (1027 * 2 ^ 52 - 1)]).
Proof.
  intros log2_of clock L. unfold serialize_call. cbn [serialize_value flat_map]. unfold encode_double. rewrite L. vm_compute. reflexivity.
Qed.
Print Assumptions C76_log_refuted.

(** A time half a second past a whole one arrives with a unix time one second after what the fields show; times before 1970 arrive as -1. *)
Theorem C76_date_refuted : forall log2_of clock,
  clock 1709251198500 = mkShown 0 2024 1 29 4 23 59 58 -> clock (- 5000000) = mkShown 0 1969 11 31 3 22 36 40 ->
  received_call None T_METHOD_CALL [serialize_call log2_of clock 3 [109] [JDate (Some 1709251198500); JDate (Some (- 5000000))]]
  = Ok (str "m", VArray [VDateTime (mkDT 2024 2 29 23 59 58 4 1709251199 0); VDateTime (mkDT 1969 12 31 22 36 40 3 (-1) 0)]).
Proof.
  intros log2_of clock A B. unfold serialize_call. cbn [serialize_value flat_map]. unfold serialize_date. rewrite A, B. vm_compute. reflexivity.
Qed.
Print Assumptions C76_date_refuted.
Print Assumptions C76_many_refuted.
Print Assumptions C76_large_refuted.
