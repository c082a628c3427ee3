(** Properties of the binary format: C01, C02, C03, C05, C06, C07, C15, C16. *)
From Coq Require Import Lia.
From Verif Require Import Base Value M_Marshal M_BinUnmarshal M_TreeBuilder S_Events S_Value S_Wire
  L_Base L_RoundTrip L_Message L_Wire L_Inject L_Old L_Send.

(** A value with every kind of content, used in the examples. *)
Definition sample : value :=
  VStruct
    [ (str "a", VInt (-129)); (str "b", VArray [VNull; VBool true; VString (str "x"); VArray []]);
      (str "c", VDateTime (mkDT 2024 2 29 23 59 58 4 1709251198 3600));
      (str "d", VSecret (VBinaryRef 3 [str "ab"; str "c"])); (str "e", VDouble 4607182418800017408);
      (str "f", VStruct []) ].

Example sample_wf2 : wf (mkVer 2 1) sample.
Proof.
  cbn. unfold small, in_s64, in_u64, has_null, dt_ok; cbn.
  repeat (split || (intros ? ? H; cbn in H; intuition congruence)); try lia; try exact I; try reflexivity;
    try (right; lia); try (exists 4; lia).
  all: intros k' x H; repeat (destruct H as [H|H]; [inversion H; subst; reflexivity|]); contradiction.
Qed.

Example sample_wf3 : wf (mkVer 3 0) sample.
Proof.
  cbn. unfold small, in_s64, in_u64, has_null, dt_ok; cbn.
  repeat (split || (intros ? ? H; cbn in H; intuition congruence)); try lia; try exact I; try reflexivity;
    try (left; lia); try (exists 4; lia).
  all: intros k' x H; repeat (destruct H as [H|H]; [inversion H; subst; reflexivity|]); contradiction.
Qed.

(** ** C01 *)
Theorem C01_response_round_trip : forall val req ver v,
  modern ver -> wf ver v -> accepts req T_METHOD_RESPONSE ->
  exists wire, sent ver (response_calls v) = Ok wire /\
  forall pieces, concat pieces = wire ->
    received_value val req pieces = Ok (plain (make_datetime val) v).
Proof. intros. apply response_wire; auto. Qed.
Print Assumptions C01_response_round_trip.

(** Without date-time validation nothing but the wrappers changes. *)
Corollary C01_response_round_trip_exact : forall req ver v,
  modern ver -> wf ver v -> accepts req T_METHOD_RESPONSE ->
  exists wire, sent ver (response_calls v) = Ok wire /\
  forall pieces, concat pieces = wire -> received_value None req pieces = Ok (plain (fun d => d) v).
Proof. intros. exact (C01_response_round_trip None req ver v H H0 H1). Qed.

Theorem C01_response_calls : forall req ver v,
  modern ver -> wf ver v -> accepts req T_METHOD_RESPONSE ->
  exists wire, sent ver (response_calls v) = Ok wire /\
  forall pieces, concat pieces = wire ->
    exists u, unmarshall_all _ record_step req unm_init [] pieces = (u, EMethodResponse :: events v, None)
              /\ unm_finish u = Ok tt.
Proof. intros. apply response_trace; auto. Qed.
Print Assumptions C01_response_calls.

Example C01_sample : exists wire, sent (mkVer 3 0) (response_calls sample) = Ok wire /\
  received_value None TYPE_ANY (map (fun b => [b]) wire) = Ok (plain (fun d => d) sample).
Proof. eexists. split; [vm_compute; reflexivity|]. vm_compute. reflexivity. Qed.

(** ** C02 *)
Theorem C02_call_round_trip : forall val req ver name params,
  modern ver -> name_ok name -> Forall (wf ver) params -> accepts req T_METHOD_CALL ->
  exists wire, sent ver (call_calls name params) = Ok wire /\
  forall pieces, concat pieces = wire ->
    received_call val req pieces = Ok (name, VArray (map (plain (make_datetime val)) params)).
Proof. intros. apply call_wire; auto. Qed.
Print Assumptions C02_call_round_trip.

Theorem C02_call_calls : forall req ver name params,
  modern ver -> name_ok name -> Forall (wf ver) params -> accepts req T_METHOD_CALL ->
  exists wire, sent ver (call_calls name params) = Ok wire /\
  forall pieces, concat pieces = wire ->
    exists u, unmarshall_all _ record_step req unm_init [] pieces
              = (u, EMethodCall name :: flat_map events params, None)
              /\ unm_finish u = Ok tt.
Proof. intros. apply call_trace; auto. Qed.
Print Assumptions C02_call_calls.

Example C02_sample : exists wire, sent (mkVer 2 1) (call_calls (str "m.n") [sample; VInt 7]) = Ok wire /\
  received_call None T_METHOD_CALL [ztake 9 wire; zdrop 9 wire]
  = Ok (str "m.n", VArray [plain (fun d => d) sample; VInt 7]).
Proof. eexists. split; [vm_compute; reflexivity|]. vm_compute. reflexivity. Qed.

(** ** C03 *)
Theorem C03_fault_round_trip : forall val req ver code msg,
  modern ver -> in_s32 code -> small (blen msg) -> msg <> [] -> accepts req T_FAULT ->
  exists wire, sent ver [PFault code msg] = Ok wire /\
  forall pieces, concat pieces = wire -> received_value val req pieces = Err (FaultExn code msg).
Proof. intros. apply fault_wire; auto. Qed.
Print Assumptions C03_fault_round_trip.

(** Every message, the empty one included, reaches the builder in exactly one [buildFault]. *)
Theorem C03_fault_calls : forall req ver code msg,
  modern ver -> in_s32 code -> small (blen msg) -> accepts req T_FAULT ->
  exists wire, sent ver [PFault code msg] = Ok wire /\
  forall pieces, concat pieces = wire ->
    exists u, unmarshall_all _ record_step req unm_init [] pieces = (u, [EFault code msg], None)
              /\ unm_finish u = Ok tt.
Proof. intros. apply (fault_trace ver); auto. Qed.
Print Assumptions C03_fault_calls.

(** The tree builder replaces an empty message (frpctreebuilder.h 125-146). *)
Theorem C03_empty_message_replaced : forall val, exists wire,
  sent (mkVer 2 1) [PFault 5 []] = Ok wire /\
  received_value val TYPE_ANY [wire] = Err (FaultExn 5 (str "No data unmarshalled")).
Proof. intro val. eexists. split; [vm_compute; reflexivity|]. vm_compute. reflexivity. Qed.

Example C03_sample : exists wire, sent (mkVer 3 0) [PFault (-32601) (str "no such method")] = Ok wire /\
  received_value None T_METHOD_RESPONSE [wire] = Err (FaultExn (-32601) (str "no such method")).
Proof. eexists. split; [vm_compute; reflexivity|]. vm_compute. reflexivity. Qed.

(** ** C05 *)
Theorem C05_integers : forall val req ver z,
  modern ver -> in_s64 z -> accepts req T_METHOD_RESPONSE ->
  exists wire, sent ver (response_calls (VInt z)) = Ok wire /\
  forall pieces, concat pieces = wire -> received_value val req pieces = Ok (VInt z).
Proof. intros. exact (response_wire val req ver H (VInt z) H0 H1). Qed.
Print Assumptions C05_integers.

Theorem C05_integers_minimal : forall ver z, modern ver -> in_s64 z ->
  exists tag payload, sent ver [PInt z] = Ok (tag :: payload) /\ fits ver z (zlen payload) /\
  (forall k, 1 <= k -> fits ver z k -> zlen payload <= k).
Proof. exact int_minimal. Qed.
Print Assumptions C05_integers_minimal.

Example C05_min_int : exists wire, sent (mkVer 2 1) (response_calls (VInt (- 2 ^ 63))) = Ok wire /\
  received_value None TYPE_ANY [wire] = Ok (VInt (- 2 ^ 63)).
Proof. eexists. split; [vm_compute; reflexivity|]. vm_compute. reflexivity. Qed.
Example C05_two_bytes : sent (mkVer 3 0) [PInt (-129)] = Ok [data_type T_INT 1; x01; x01].
Proof. reflexivity. Qed.

(** ** C06 *)
(** The full claim fails: -1 and 2^32 come back different. *)
Theorem C06_protocol1_integers_refuted : exists z wire, in_s64 z /\
  sent (mkVer 1 0) (response_calls (VInt z)) = Ok wire /\
  received_value None TYPE_ANY [wire] <> Ok (VInt z).
Proof.
  exists (-1). eexists. split; [unfold in_s64; lia|]. split; [vm_compute; reflexivity|]. vm_compute. discriminate.
Qed.

(** What does hold: the value modulo 2^32 arrives, so exactly the integers 0 .. 2^32-1 survive. *)
Theorem C06_protocol1_integers_partial : forall val req minor z,
  0 <= minor < 256 -> in_s64 z -> accepts req T_METHOD_RESPONSE ->
  exists wire, sent (mkVer 1 minor) (response_calls (VInt z)) = Ok wire /\
  forall pieces, concat pieces = wire ->
    received_value val req pieces = Ok (VInt (z mod 2 ^ 32)) /\
    (received_value val req pieces = Ok (VInt z) <-> 0 <= z < 2 ^ 32).
Proof.
  intros val req minor z Hm Hz HA.
  destruct (old_int_wire (mkVer 1 minor) eq_refl Hm val req z Hz HA) as (wire & HS & HR).
  exists wire. split; auto. intros pieces EC. rewrite (HR pieces EC). split; auto. split; intro H.
  - injection H as H. pose proof (Z.mod_pos_bound z (2 ^ 32)). lia.
  - rewrite Z.mod_small by lia. reflexivity.
Qed.
Print Assumptions C06_protocol1_integers_partial.

(** The encoding uses the smallest number of bytes that can carry that value. *)
Theorem C06_protocol1_minimal : forall minor z, in_s64 z ->
  exists tag payload, sent (mkVer 1 minor) [PInt z] = Ok (tag :: payload) /\ z mod 2 ^ 32 < 256 ^ zlen payload /\
  (forall k, 1 <= k -> z mod 2 ^ 32 < 256 ^ k -> zlen payload <= k).
Proof. intros. apply int_minimal_old; auto. Qed.
Print Assumptions C06_protocol1_minimal.
Example C06_two_bytes : sent (mkVer 1 0) [PInt 256] = Ok [data_type T_INT 2; x00; x01].
Proof. reflexivity. Qed.

(** ** C07 *)
Definition dt_documented (bits : Z) (d : datetime) : Prop :=
  1600 <= dt_year d <= 3647 /\ 1 <= dt_month d <= 12 /\ 1 <= dt_day d <= 31
  /\ 0 <= dt_hour d <= 23 /\ 0 <= dt_min d <= 59 /\ 0 <= dt_sec d <= 59 /\ 0 <= dt_wday d <= 6
  /\ - 2 ^ (bits - 1) <= dt_unix d < 2 ^ (bits - 1)
  /\ (exists q, - 128 <= q <= 127 /\ dt_tz d = q * 900).

Theorem C07_datetime_refuted : exists d wire, dt_documented 32 d /\
  sent (mkVer 3 0) (response_calls (VDateTime d)) = Ok wire /\
  received_value None TYPE_ANY [wire] <> Ok (VDateTime d).
Proof.
  exists (mkDT 2700 1 1 0 0 0 0 0 0). eexists. split.
  - unfold dt_documented; cbn. repeat split; try lia. exists 0. lia.
  - split; [vm_compute; reflexivity|]. vm_compute. discriminate.
Qed.

(** Years up to 2623 survive, in both formats. *)
Theorem C07_datetime_partial : forall req ver d,
  modern ver -> dt_documented (unix_bits ver) d -> dt_year d <= 2623 -> accepts req T_METHOD_RESPONSE ->
  exists wire, sent ver (response_calls (VDateTime d)) = Ok wire /\
  forall pieces, concat pieces = wire -> received_value None req pieces = Ok (VDateTime d).
Proof.
  intros req ver d HM HD HY HA.
  apply (response_wire None req ver HM (VDateTime d)); auto.
  cbn [wf]. unfold dt_ok, dt_documented in *. destruct HD as (Y & R). split; [lia|exact R].
Qed.
Print Assumptions C07_datetime_partial.

Example C07_sample : dt_documented 32 (mkDT 2024 2 29 23 59 58 4 1709251198 3600).
Proof. unfold dt_documented; cbn. repeat split; try lia. exists 4. lia. Qed.

(** ** C15 *)
Theorem C15_self_delimiting : forall ver v1 v2 w1 w2 r1 r2,
  modern ver -> wf ver v1 -> wf ver v2 ->
  sent ver (feed v1) = Ok w1 -> sent ver (feed v2) = Ok w2 -> w1 ++ r1 = w2 ++ r2 ->
  plain (fun d => d) v1 = plain (fun d => d) v2 /\ w1 = w2 /\ r1 = r2.
Proof.
  intros ver v1 v2 w1 w2 r1 r2 HM W1 W2 S1 S2 E.
  assert (X : forall v w, sent ver (feed v) = Ok w -> fst (bin_run ver (feed v)) = w).
  { intros v w. unfold sent. destruct (bin_run ver (feed v)) as [o [[|]|]]; intro H; inversion H; reflexivity. }
  apply X in S1. apply X in S2. subst w1 w2.
  destruct (enc_inject ver HM v1 v2 r1 r2 W1 W2 E) as [EP ->].
  split; [exact EP|]. split; auto. eapply app_inv_tail. exact E.
Qed.
Print Assumptions C15_self_delimiting.

Example C15_sample : exists w, sent (mkVer 2 1) (feed sample) = Ok w /\ w <> [].
Proof. eexists. split; [vm_compute; reflexivity|discriminate]. Qed.

(** ** C16 *)
Theorem C16_refused_writes_nothing : forall ver c o f, bin_pack ver c = (o, Some f) ->
  o = [] /\
  ((c = PNull /\ ~ at_least 2 1 ver /\ f = Exn (StreamError "Null is not supported by protocol version lower than 2.1"))
   \/ (exists k, (c = PMember k \/ c = PMethodCall k) /\ ~ name_ok k /\ f = Exn LenError)
   \/ (exists d, c = PDateTime d /\ v_major ver < 3 /\ dt_unix d = - 2 ^ 63 /\ f = Undef)).
Proof. exact bin_pack_refuses. Qed.
Print Assumptions C16_refused_writes_nothing.

Theorem C16_accepted : forall ver c,
  (snd (bin_pack ver c) = None <->
   match c with
   | PNull => at_least 2 1 ver
   | PMember k | PMethodCall k => name_ok k
   | PDateTime d => v_major ver < 3 -> dt_unix d <> - 2 ^ 63
   | _ => True
   end).
Proof. exact bin_pack_accepts. Qed.
Print Assumptions C16_accepted.

Theorem C16_sendable : forall ver v, (exists w, sent ver (feed v) = Ok w) <-> sendable ver v.
Proof. exact sendable_spec. Qed.
Print Assumptions C16_sendable.

Theorem C16_errors : forall ver cs e, sent ver cs = Err e ->
  e = LenError \/ e = StreamError "Null is not supported by protocol version lower than 2.1".
Proof. exact sent_error. Qed.
Print Assumptions C16_errors.

Example C16_null_20 : sent (mkVer 2 0) (response_calls VNull)
  = Err (StreamError "Null is not supported by protocol version lower than 2.1").
Proof. reflexivity. Qed.
Example C16_empty_name : sent (mkVer 3 0) (feed (VStruct [([], VInt 1)])) = Err LenError.
Proof. reflexivity. Qed.
