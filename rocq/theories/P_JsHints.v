(** C105: hints give the types of what JavaScript sends. *)
From Coq Require Import Lia.
From Verif Require Import Base Value Text Unicode M_Marshal M_BinUnmarshal M_TreeBuilder S_Value S_Wire M_Js S_Js M_JsHints S_JsHints
  L_Base L_Bits L_RoundTrip L_JsText L_Js L_JsCall L_JsHints P_JsCall.

(** ** C105 *)
(** For every data, hints, cutting of the message: the C++ library receives the values with the types the hints give. *)
Theorem C105_hints_partial : forall log2_of clock ver req name h F B params typeds,
  ver = 2 \/ ver = 3 -> text_sends 1 255 name -> zlen params < 256 -> accepts req T_METHOD_CALL ->
  gives h F B -> typed F B [] (RArr params) (JArr typeds) -> Forall (js_sends log2_of clock ver) typeds ->
  exists wire n vs, serialize_call_raw log2_of clock h ver name (RArr params) = JOk wire /\
  same_text n name /\ Forall2 (same (as_shown clock)) vs typeds /\
  forall pieces, concat pieces = wire -> received_call None req pieces = Ok (n, VArray vs).
Proof.
  intros log2_of clock ver req name h F B params typeds HV NM LP HA G T JS.
  assert (SER : serialize_raw log2_of clock h ver [] (RArr params) = JOk (serialize_value log2_of clock ver (JArr typeds)) /\ zlen params = zlen typeds).
  { inversion T; subst. destruct (serialize_typed log2_of clock ver h F B G) as (_ & SI & _). destruct (SI _ _ _ _ H3 ltac:(lia) (Forall_nil _) JS) as [E1 E2].
    split; [|exact E2]. rewrite (ser_arr log2_of clock ver h). destruct (hint_spec h F B [] G (Forall_nil _)) as [_ HB].
    destruct (hint_is "binary" h []); [exfalso; apply H2, HB; reflexivity|]. rewrite E1, E2. reflexivity. }
  destruct SER as [SER LEN]. destruct (C76_js_calls_partial log2_of clock ver req name typeds HV NM ltac:(lia) JS HA) as (n & vs & N & S & R).
  exists (serialize_call log2_of clock ver name typeds), n, vs. split; [|auto]. unfold serialize_call_raw. rewrite SER. reflexivity.
Qed.
Print Assumptions C105_hints_partial.

(** Data with something that is no data raise an exception; nothing is sent. *)
Theorem C105_undefined : forall log2_of clock ver name h F B v, gives h F B -> undefined_in B [] v ->
  serialize_call_raw log2_of clock h ver name v = JThrow.
Proof.
  intros log2_of clock ver name h F B v G U. unfold serialize_call_raw.
  rewrite (serialize_undefined log2_of clock ver h F B G [] v U (Forall_nil _)). reflexivity.
Qed.
Print Assumptions C105_undefined.

(** ** A case *)
(** The numbers 1, 5, 97 and 1.5. *)
Definition n1 := RNum (1023 * 2 ^ 52).
Definition n5 := RNum (1025 * 2 ^ 52 + 2 ^ 50).
Definition n97 := RNum (1029 * 2 ^ 52 + 33 * 2 ^ 46).
Definition sample : list raw :=
  [ RObj [(jtext "a", n1); (jtext "b", RArr [n97; n5]); (jtext "c", RArr [n1; n1])]; n5;
    RObj [(jtext "_hint", RStr (jtext "float")); (jtext "value", n1)] ].
Definition sample_meant : meant := [([jtext "0"; jtext "a"], K_float); ([jtext "0"; jtext "b"], K_binary); ([jtext "0"; jtext "c"; jtext "1"], K_float)].
Definition sample_typed : list js :=
  [ JObj [(jtext "a", JFloat (1023 * 2 ^ 52)); (jtext "b", JBytes [x61; x05]); (jtext "c", JArr [JNum 1; JFloat (1023 * 2 ^ 52)])]; JNum 5; JFloat (1023 * 2 ^ 52) ].

Lemma plain_sample : forall s, In s (map jtext ["0"; "1"; "a"; "b"; "c"]%string) -> plain s.
Proof.
  intros s I. cbn [map In] in I. repeat (destruct I as [<-|I]; [split; [discriminate|cbn; intuition discriminate]|]). destruct I.
Qed.

Example sample_gives : gives (written sample_meant) (fun p => In (p, K_float) sample_meant) (fun p => In (p, K_binary) sample_meant).
Proof.
  constructor.
  - repeat constructor; cbn; intuition discriminate.
  - repeat constructor; cbn [fst]; try (apply plain_sample; cbn; tauto); intros X; cbn in X; intuition discriminate.
Qed.

Lemma is_integer : forall bits z s u, number_of bits = N_finite s u -> Z.abs z * 2 ^ 1074 = u -> (s = true -> z <= 0) -> (s = false -> 0 <= z) -> integer bits z.
Proof. intros. exists s, u. auto. Qed.

Lemma i1 : integer (1023 * 2 ^ 52) 1. Proof. eapply is_integer; [vm_compute; reflexivity|vm_compute; reflexivity|discriminate|lia]. Qed.
Lemma i5 : integer (1025 * 2 ^ 52 + 2 ^ 50) 5. Proof. eapply is_integer; [vm_compute; reflexivity|vm_compute; reflexivity|discriminate|lia]. Qed.
Lemma i97 : integer (1029 * 2 ^ 52 + 33 * 2 ^ 46) 97. Proof. eapply is_integer; [vm_compute; reflexivity|vm_compute; reflexivity|discriminate|lia]. Qed.

Example sample_is_typed : typed (fun p => In (p, K_float) sample_meant) (fun p => In (p, K_binary) sample_meant) [] (RArr sample) (JArr sample_typed).
Proof.
  apply t_array; [cbn; intuition discriminate|]. apply ti_cons; [|apply ti_cons; [|apply ti_cons; [|apply ti_nil]]].
  - apply t_object.
    + intros k. cbn. intuition discriminate.
    + repeat (apply Forall_cons; [apply plain_sample; cbn; tauto|]). apply Forall_nil.
    + apply tm_cons; [|apply tm_cons; [|apply tm_cons; [|apply tm_nil]]].
      * apply t_float. left. reflexivity.
      * apply t_binary; [right; left; reflexivity|]. constructor; [eexists; split; [reflexivity|exact i97]|]. constructor; [eexists; split; [reflexivity|exact i5]|]. constructor.
      * apply t_array; [cbn; intuition discriminate|]. apply ti_cons; [apply t_int; [cbn; intuition discriminate|exact i1]|].
        apply ti_cons; [apply t_float; right; right; left; reflexivity|]. apply ti_nil.
  - apply t_int; [cbn; intuition discriminate|exact i5].
  - exact (t_wrapped_float _ _ _ (1023 * 2 ^ 52)).
Qed.

Definition wire_of (r : jres bytes) : bytes := match r with JOk b => b | _ => [] end.
Example C105_sample : received_call None T_METHOD_CALL [wire_of (serialize_call_raw one_log one_clock (written sample_meant) 2 [109] (RArr sample))] =
  Ok (str "m", VArray [ VStruct [(str "a", VDouble (1023 * 2 ^ 52)); (str "b", VBinary [x61; x05]); (str "c", VArray [VInt 1; VDouble (1023 * 2 ^ 52)])];
                        VInt 5; VDouble (1023 * 2 ^ 52) ]).
Proof. vm_compute. reflexivity. Qed.

Example C105_undefined_sample : undefined_in (fun _ => False) [] (RArr [n1; RObj [(jtext "a", RUndef)]]).
Proof.
  apply (u_item _ _ _ 1%nat (RObj [(jtext "a", RUndef)])); [tauto|reflexivity|].
  apply (u_member _ _ _ (jtext "a") RUndef); [cbn; intuition discriminate|left; reflexivity|apply plain_sample; cbn; tauto|constructor].
Qed.

(** ** What the conditions leave out *)
(** A number with a fraction and no hint: with version 3, z + 1/2 arrives as - (z + 1) (theorem for every z); with version 2
    the fraction is dropped. *)
Theorem C105_fraction_refuted : forall log2_of clock req name z bits,
  0 < z < 2 ^ 51 -> number_of bits = N_finite false ((2 * z + 1) * 2 ^ 1073) -> text_sends 1 255 name -> accepts req T_METHOD_CALL ->
  exists wire, serialize_call_raw log2_of clock H_none 3 name (RArr [RNum bits]) = JOk wire /\
  forall pieces, concat pieces = wire -> received_call None req pieces = Ok (te_encode name, VArray [VInt (- (z + 1))]).
Proof.
  intros log2_of clock req name z bits R N NM HA.
  exists (serialize_call log2_of clock 3 name [JNum (- z)]). split.
  - unfold serialize_call_raw, serialize_raw, serialize_call. cbn [hint_is get_hint]. cbn [jbind]. f_equal. f_equal. f_equal. f_equal.
    cbn [serialize_value flat_map Z.eqb Pos.eqb]. f_equal. f_equal. f_equal. unfold serialize_int. rewrite N. cbn [Z.eqb Pos.eqb andb].
    replace (2 * ((2 * z + 1) * 2 ^ 1073)) with ((2 * z + 1) * unit).
    2:{ replace unit with (2 * 2 ^ 1073) by (rewrite <- Z.pow_succ_r by lia; reflexivity). lia. }
    rewrite encode_units_int by (pose proof big; lia). unfold encode_zigzag. destruct (Z.ltb_spec (- z) 0); [|lia].
    rewrite rnd_id by lia. replace (2 * - - z + 1) with (2 * z + 1) by lia. reflexivity.
  - intros pieces E. rewrite (C76_negative_refuted log2_of clock req name (- z)) by (auto; lia). replace (- z - 1) with (- (z + 1)) by lia. reflexivity.
Qed.
Print Assumptions C105_fraction_refuted.
Example C105_fraction_sample : number_of (1023 * 2 ^ 52 + 2 ^ 51) = N_finite false ((2 * 1 + 1) * 2 ^ 1073).
Proof. vm_compute. reflexivity. Qed.

(** Not a number and infinity without a hint arrive as 0. *)
Theorem C105_infinite_refuted :
  received_call None T_METHOD_CALL [wire_of (serialize_call_raw one_log one_clock H_none 2 [109] (RArr [RNum (2047 * 2 ^ 52); RNum (2047 * 2 ^ 52 + 1)]))]
  = Ok (str "m", VArray [VInt 0; VInt 0]).
Proof. vm_compute. reflexivity. Qed.

(** A hint for the member b of the member a is one for a member called a.b, too. *)
Theorem C105_dot_refuted : exists m data,
  m = [([jtext "0"; jtext "a"; jtext "b"], K_float)] /\ data = RArr [RObj [(jtext "a.b", n5)]] /\
  received_call None T_METHOD_CALL [wire_of (serialize_call_raw one_log one_clock H_none 2 [109] data)] = Ok (str "m", VArray [VStruct [(str "a.b", VInt 5)]]) /\
  received_call None T_METHOD_CALL [wire_of (serialize_call_raw (fun _ => 2) one_clock (written m) 2 [109] data)]
  = Ok (str "m", VArray [VStruct [(str "a.b", VDouble (1025 * 2 ^ 52 + 2 ^ 50))]]).
Proof. eexists _, _. split; [reflexivity|]. split; [reflexivity|]. split; vm_compute; reflexivity. Qed.

(** The hint "binary": the parameters themselves are taken for binary data, and become the bytes of the message: of the number
    17 the receiver makes true. *)
Theorem C105_scalar_binary_refuted :
  received_call None T_METHOD_CALL [wire_of (serialize_call_raw one_log one_clock (H_scalar (kind_text K_binary)) 2 [109] (RArr [RNum (1027 * 2 ^ 52 + 2 ^ 48)]))]
  = Ok (str "m", VArray [VBool true]).
Proof. vm_compute. reflexivity. Qed.
Print Assumptions C105_infinite_refuted.
Print Assumptions C105_dot_refuted.
Print Assumptions C105_scalar_binary_refuted.
