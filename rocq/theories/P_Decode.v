(** Properties of the binary unmarshaller on arbitrary input: C04, C08 - C14. *)
From Coq Require Import Lia.
From Verif Require Import Base Value M_Marshal M_BinUnmarshal M_TreeBuilder S_Events S_Value S_Wire
  L_Base L_BinUnmarshal L_BinSafety L_Nesting L_RoundTrip L_Message L_Wire L_Complete L_Truncate L_Origin L_Bound L_Dead.

(** Bytes of a hand written message. *)
Definition bs (l : list Z) : bytes := map z2b l.

(** ** C04 *)
Theorem C04_segmentation : forall B (bstep : B -> event -> B * option fail) req b pieces1 pieces2,
  concat pieces1 = concat pieces2 ->
  let '(u1, b1, f1) := unmarshall_all B bstep req unm_init b pieces1 in
  let '(u2, b2, f2) := unmarshall_all B bstep req unm_init b pieces2 in
  b1 = b2 /\ f1 = f2 /\ unm_finish u1 = unm_finish u2.
Proof.
  intros B bstep req b p1 p2 E.
  destruct (unmarshall_all_concat B bstep req p1 unm_init b ready_init) as (u1 & E1 & _ & C1).
  destruct (unmarshall_all_concat B bstep req p2 unm_init b ready_init) as (u2 & E2 & _ & C2).
  rewrite E in E1. rewrite E1 in E2.
  destruct (unmarshall_all B bstep req unm_init b p1) as [[v1 b1] f1].
  destruct (unmarshall_all B bstep req unm_init b p2) as [[v2 b2] f2]. cbn [fst snd] in *.
  inversion E2; subst. unfold unm_finish. rewrite <- C1, <- C2. auto.
Qed.
Print Assumptions C04_segmentation.

(** In particular for the builder that records the calls, and for the tree builder. *)
Corollary C04_segmentation_calls : forall req pieces1 pieces2, concat pieces1 = concat pieces2 ->
  snd (fst (unmarshall_all _ record_step req unm_init [] pieces1))
  = snd (fst (unmarshall_all _ record_step req unm_init [] pieces2)).
Proof.
  intros req p1 p2 E. pose proof (C04_segmentation _ record_step req [] p1 p2 E) as X.
  destruct (unmarshall_all _ record_step req unm_init [] p1) as [[? ?] ?].
  destruct (unmarshall_all _ record_step req unm_init [] p2) as [[? ?] ?]. apply X.
Qed.

Corollary C04_segmentation_tree : forall val req pieces1 pieces2, concat pieces1 = concat pieces2 ->
  received val req pieces1 = received val req pieces2.
Proof.
  intros val req p1 p2 E. pose proof (C04_segmentation tb (tb_step val) req tb_init p1 p2 E) as X. unfold received.
  destruct (unmarshall_all tb _ req unm_init tb_init p1) as [[? ?] ?].
  destruct (unmarshall_all tb _ req unm_init tb_init p2) as [[? ?] ?]. destruct X as (-> & -> & ->). reflexivity.
Qed.

Example C04_sample :
  let m := bs [202; 17; 2; 1; 112; 88; 2; 32; 1; 65; 56; 7] in
  received_value None TYPE_ANY (map (fun b => [b]) m) = Ok (VArray [VString (str "A"); VInt 7])
  /\ received_value None TYPE_ANY [m] = Ok (VArray [VString (str "A"); VInt 7]).
Proof. split; vm_compute; reflexivity. Qed.

(** ** C08 *)
Theorem C08_calls_bounded : forall B (bstep : B -> event -> B * option fail) req b pieces u b' f,
  unmarshall_all _ (traced bstep) req unm_init (b, []) pieces = (u, b', f) -> Forall bounded (snd b').
Proof.
  intros B bstep req b pieces u b' f H.
  exact (unmarshall_all_bnd B bstep req pieces unm_init (b, []) u b' f ready_init (Forall_nil _) H).
Qed.
Print Assumptions C08_calls_bounded.

(** An oversized announcement as the value of a response: a stream error, and the builder has only
    been told that a response begins. *)
Theorem C08_oversized_refused : forall B (bstep : B -> event -> B * option fail) req ver b b1 T k p rest pieces,
  modern ver -> accepts req T_METHOD_RESPONSE -> bstep b EMethodResponse = (b1, None) ->
  T = T_STRING \/ T = T_BINARY \/ T = T_ARRAY \/ T = T_STRUCT ->
  0 <= k <= 7 -> zlen p = k + 1 -> 2 ^ 30 <= le_val p ->
  concat pieces = magic ver ++ data_type T_METHOD_RESPONSE 0 :: data_type T k :: p ++ rest ->
  exists u m, unmarshall_all B bstep req unm_init b pieces = (u, b1, Some (Exn (StreamError m))).
Proof.
  intros B bstep req ver b b1 T k p rest pieces HM HA HB HT Hk Lp HL EC.
  destruct (oversize_refused B bstep req ver HM (idle ver 0 0) b1 T k p rest (idle_at_value ver 0) HT Hk Lp HL) as (c' & m & E).
  destruct (unmarshall_all_concat B bstep req pieces unm_init b ready_init) as (u' & E1 & _ & _).
  rewrite EC in E1. rewrite unmarshall_lbig in E1 by exact ready_init.
  cbn [unm_init u_core u_wanted u_buffer] in E1. rewrite app_nil_l in E1.
  change (mkCore S_MAGIC [] 0 0 (mkVer 2 1)) with core0 in E1.
  rewrite (decode_magic B bstep req ver (modern_legal ver HM)) in E1.
  rewrite (decode_response_tag B bstep req ver b _ b1 HA HB) in E1. rewrite E in E1.
  destruct (unmarshall_all B bstep req unm_init b pieces) as [[u b2] f]. cbn [fst snd fail_of] in E1.
  inversion E1; subst. eauto.
Qed.
Print Assumptions C08_oversized_refused.

Example C08_sample : exists u,
  unmarshall_all _ record_step TYPE_ANY unm_init []
    [bs [202; 17; 2; 1; 112]; bs [91; 0; 0; 0; 64]; bs [1; 2]]
  = (u, [EMethodResponse], Some (Exn (StreamError "Array entity too large"))).
Proof. eexists. vm_compute. reflexivity. Qed.

(** ** C09 *)
Theorem C09_no_bad_read : forall B (bstep : B -> event -> B * option fail) req b pieces u b' f,
  (forall b e, snd (bstep b e) <> Some Undef) ->
  unmarshall_all B bstep req unm_init b pieces = (u, b', f) -> f <> Some Undef.
Proof.
  intros B bstep req b pieces u b' f HB H.
  pose proof (unmarshall_all_origin B bstep req (fun _ => True) (fun _ _ _ _ _ => I) pieces unm_init b u b' f ready_init I H) as O.
  destruct f as [f|]; [|discriminate]. intro X. inversion X; subst.
  destruct O as [[[m O] _]|(b0 & e & _ & O)]; [discriminate|].
  apply (HB b0 e). rewrite O. reflexivity.
Qed.
Print Assumptions C09_no_bad_read.

Theorem C09_tree_no_bad_read : forall val req pieces u t f,
  unmarshall_all tb (tb_step val) req unm_init tb_init pieces = (u, t, f) ->
  f <> Some Undef /\ tb_data t <> UB.
Proof. exact tree_no_undef. Qed.
Print Assumptions C09_tree_no_bad_read.

(** With the tree builder the only exception is a stream error. *)
Theorem C09_tree_exceptions : forall val req pieces u t f,
  unmarshall_all tb (tb_step val) req unm_init tb_init pieces = (u, t, Some f) ->
  exists m, f = Exn (StreamError m).
Proof. exact tree_fail_kind. Qed.
Print Assumptions C09_tree_exceptions.

(** The claim does not extend past an exception thrown by a builder: with a builder that throws
    from closeArray, calling unMarshall again with no data reads a byte that was never given. *)
Definition close_throws (b : list event) (e : event) : list event * option fail :=
  match e with
  | ECloseArray => (b, Some (Exn (OtherExn 1)))
  | _ => (b ++ [e], None)
  end.
Theorem C09_after_builder_exception_refuted : exists u b,
  unmarshall_all _ close_throws TYPE_ANY unm_init [] [bs [202; 17; 2; 1; 112; 88; 1; 32; 0]]
    = (u, b, Some (Exn (OtherExn 1)))
  /\ snd (unmarshall _ close_throws TYPE_ANY u b []) = Some Undef.
Proof. do 2 eexists. split; [vm_compute; reflexivity|]. vm_compute. reflexivity. Qed.

(** ** C10 *)
Theorem C10_well_nested : forall B (bstep : B -> event -> B * option fail) req b pieces u b' f,
  unmarshall_all _ (traced bstep) req unm_init (b, []) pieces = (u, b', f) -> well_nested (snd b').
Proof.
  intros B bstep req b pieces u b' f H.
  exact (proj1 (unmarshall_all_nest B bstep req pieces unm_init (b, []) u b' f (nready_init _ _) H)).
Qed.
Print Assumptions C10_well_nested.

Example C10_not_vacuous : ~ well_nested [EMethodResponse; EOpenStruct 1; EInt 1]
  /\ ~ well_nested [EMethodResponse; EOpenArray 2; EInt 1; ECloseArray]
  /\ ~ well_nested [EMethodResponse; EOpenArray 0; ECloseStruct]
  /\ well_nested [EMethodResponse; EOpenStruct 1; EMember (str "a"); EOpenArray 1; EInt 3; ECloseArray; ECloseStruct].
Proof. unfold well_nested. cbn. repeat split; try discriminate; intro H; apply H; reflexivity. Qed.

(** ** C11 *)
Theorem C11_finish_refuted : exists u,
  unmarshall_all _ record_step TYPE_ANY unm_init [] [bs [202; 17; 2; 1; 112]] = (u, [EMethodResponse], None)
  /\ unm_finish u = Ok tt.
Proof. eexists. split; vm_compute; reflexivity. Qed.

Theorem C11_finish_fault_refuted : exists u,
  unmarshall_all _ record_step TYPE_ANY unm_init [] [bs [202; 17; 2; 1; 120; 56; 5]] = (u, [], None)
  /\ unm_finish u = Ok tt.
Proof. eexists. split; vm_compute; reflexivity. Qed.

(** What finish() does guarantee: every reported value is complete. *)
Theorem C11_finish_partial : forall B (bstep : B -> event -> B * option fail) req pieces b u b',
  unmarshall_all _ (traced bstep) req unm_init (b, []) pieces = (u, b', None) -> unm_finish u = Ok tt ->
  (exists name vs, snd b' = EMethodCall name :: flat_map events vs)
  \/ (exists vs, snd b' = EMethodResponse :: flat_map events vs)
  \/ (exists code msg, snd b' = [EFault code msg])
  \/ snd b' = [].
Proof.
  intros B bstep req pieces b u b' H F.
  destruct (finished_trace B bstep req pieces b u b' H F) as [X|[X|[(c & m & X & _)|[X _]]]]; eauto 8.
Qed.
Print Assumptions C11_finish_partial.

(** ** C12 *)
Theorem C12_truncated_response : forall val req ver v wire n pieces,
  modern ver -> wf ver v -> accepts req T_METHOD_RESPONSE ->
  sent ver (response_calls v) = Ok wire -> 0 <= n < zlen wire -> concat pieces = ztake n wire ->
  (n <> 5 -> received val req pieces = Err (StreamError "Stream not complete")) /\
  (n = 5 -> received_value val req pieces = Err (FaultExn (-500) (str "No data unmarshalled"))).
Proof. intros val req ver v wire n pieces HM. apply response_truncated; auto. Qed.
Print Assumptions C12_truncated_response.

Example C12_sample :
  received None TYPE_ANY [bs [202; 17; 2; 1; 112; 88; 2; 32; 1; 65]] = Err (StreamError "Stream not complete").
Proof. vm_compute. reflexivity. Qed.

(** ** C13 *)
(** For builders that accept every call, and for the tree builder: all later calls throw the
    same exception and the builder is as it was at the first failure. *)
Theorem C13_stays_failed : forall B (bstep : B -> event -> B * option fail) req pieces b u b' f datas,
  (forall b e, snd (bstep b e) = None) ->
  unmarshall_all B bstep req unm_init b pieces = (u, b', Some f) ->
  attempts bstep req u b' datas = (map (fun _ => Some f) datas, b').
Proof.
  intros B bstep req pieces b u b' f datas HB H.
  apply (stays_failed B bstep req (fun _ => False)) with (pieces := pieces) (b := b); auto.
  - intros b0 e b1 f0 E. specialize (HB b0 e). rewrite E in HB. discriminate.
  - intros b0 e b1 f0 _ E. specialize (HB b0 e). rewrite E in HB. discriminate.
Qed.
Print Assumptions C13_stays_failed.

Theorem C13_tree_stays_failed : forall val req pieces u t f datas,
  unmarshall_all tb (tb_step val) req unm_init tb_init pieces = (u, t, Some f) ->
  attempts (tb_step val) req u t datas = (map (fun _ => Some f) datas, t).
Proof. exact tree_stays_failed. Qed.
Print Assumptions C13_tree_stays_failed.

Example C13_sample : exists u t f,
  unmarshall_all tb (tb_step None) TYPE_ANY unm_init tb_init [bs [202; 17; 2; 1; 112; 56; 5; 56]; bs [6]] = (u, t, Some f)
  /\ attempts (tb_step None) TYPE_ANY u t [bs [56; 7]; []] = ([Some f; Some f], t).
Proof. do 3 eexists. split; [vm_compute; reflexivity|]. vm_compute. reflexivity. Qed.

(** ** C14 *)
(** Fails when the unknown tag stands for a struct member's value: the tag is swallowed. *)
Theorem C14_partial_refuted : exists data u,
  unmarshall_known _ record_step TYPE_ANY unm_init [] data
    = (u, [EMethodResponse; EOpenStruct 1; EMember (str "a")], inl (zlen data))
  /\ data = bs [202; 17; 2; 1; 112; 80; 1; 1; 97] ++ bs [248]
  /\ zlen (u_buffer u) = 1 /\ u_wanted u = 1.
Proof. do 2 eexists. split; [|split; [reflexivity|]]; vm_compute; auto. Qed.

(** Otherwise (the input was not fully consumed, or less than the next needed amount is pending):
    the decoder is in exactly the state, and the builder has seen exactly the calls, of an ordinary
    unMarshall of the consumed prefix, and the next byte is an unknown tag. *)
Theorem C14_known_prefix_partial : forall B (bstep : B -> event -> B * option fail) req b data u' b' n,
  unmarshall_known B bstep req unm_init b data = (u', b', inl n) ->
  n < zlen data \/ zlen (u_buffer u') < u_wanted u' ->
  0 <= n <= zlen data
  /\ unmarshall B bstep req unm_init b (ztake n data) = (u', b', None)
  /\ (n < zlen data ->
      exists u2, unmarshall B bstep req unm_init b (ztake (n + 1) data)
                 = (u2, b', Some (Exn (StreamError "Unknown value type")))).
Proof. intros B bstep req b data u' b' n. apply unmarshall_known_spec. apply ready_init. Qed.
Print Assumptions C14_known_prefix_partial.

Example C14_sample : exists u,
  unmarshall_known _ record_step TYPE_ANY unm_init [] (bs [202; 17; 2; 1; 112; 56; 5; 248; 1])
  = (u, [EMethodResponse; EInt 5], inl 7).
Proof. eexists. vm_compute. reflexivity. Qed.
