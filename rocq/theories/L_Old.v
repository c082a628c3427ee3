(** Integers under protocol version 1. *)
From Coq Require Import Lia.
From Verif Require Import Base Value M_Marshal M_BinUnmarshal M_TreeBuilder S_Value S_Wire L_Base L_Bits L_BinUnmarshal
  L_RoundTrip L_TreeBuilder L_Message L_Wire.

Section Old.
  Variable ver : version.
  Hypothesis H1 : v_major ver = 1.
  Hypothesis H2 : 0 <= v_minor ver < 256.

  Lemma old_num : forall n, in_s64 n ->
    exists t p, pack_num ver T_INT n (u32 n) = data_type T_INT t :: p /\ 1 <= t <= 4 /\ zlen p = t
                /\ get_int64 p = u32 n.
  Proof.
    intros n Hn. unfold pack_num. cbv zeta.
    set (t := get_number_type ver n). exists t, (le_bytes (Z.to_nat (get_number_size ver t)) (u64 (u32 n))).
    assert (ES : get_number_size ver t = t).
    { unfold get_number_size. rewrite H1. reflexivity. }
    rewrite ES.
    assert (R : 0 <= u32 n < 2 ^ 32) by (apply unsigned_range; lia).
    assert (X : 1 <= t <= 4 /\ u32 n < 256 ^ t).
    { unfold t, get_number_type. rewrite H1. change (1 <? 2) with true. cbv iota zeta.
      assert (SU : 0 <= s32 n -> u32 n = s32 n).
      { unfold u32, s32, unsigned, signed. cbv zeta.
        destruct (n mod 2 ^ 32 <? 2 ^ (32 - 1)) eqn:E; auto.
        pose proof (Z.mod_pos_bound n (2 ^ 32) ltac:(lia)). lia. }
      destruct (Z.land (s32 n) (mask 8) =? 0) eqn:E1;
        [apply mask_lt in E1; [|lia]; rewrite SU by lia; change (256 ^ (0 + 1)) with 256; lia|].
      destruct (Z.land (s32 n) (mask 16) =? 0) eqn:E2;
        [apply mask_lt in E2; [|lia]; rewrite SU by lia; change (256 ^ (1 + 1)) with 65536; lia|].
      destruct (Z.land (s32 n) (mask 24) =? 0) eqn:E3;
        [apply mask_lt in E3; [|lia]; rewrite SU by lia; change (256 ^ (2 + 1)) with 16777216; lia|].
      change (256 ^ (3 + 1)) with (2 ^ 32). lia. }
    destruct X as [X1 X2]. split; [reflexivity|]. split; [exact X1|].
    split; [rewrite zlen_le_bytes; lia|].
    unfold get_int64. rewrite le_val_le_bytes. rewrite Z2Nat.id by lia.
    rewrite u64_id by (unfold in_u64; lia). rewrite Z.mod_small by lia. apply s64_id. unfold in_s64. lia.
  Qed.

  Lemma old_legal : legal ver.
  Proof. split; [lia|auto]. Qed.

  Lemma old_int_wire : forall val req z, in_s64 z -> accepts req T_METHOD_RESPONSE ->
    exists wire, sent ver (response_calls (VInt z)) = Ok wire /\
    forall pieces, concat pieces = wire -> received_value val req pieces = Ok (VInt (z mod 2 ^ 32)).
  Proof.
    intros val req z Hz HA. unfold sent, response_calls. cbn [feed bin_run bin_pack].
    eexists. split; [reflexivity|]. intros pieces EC.
    unfold received_value, received.
    erewrite all_of_lbig; [| exact EC | apply (idle_cinv ver 0 0); lia |].
    2:{ rewrite !app_nil_r. rewrite <- !app_assoc. rewrite (decode_magic _ _ _ ver old_legal). cbn [app].
        rewrite (decode_response_tag tb (tb_step val) req ver _ _ tb_init HA eq_refl).
        unfold pack_int. rewrite H1. change (2 <? 1) with false. change (1 <? 1) with false. cbv iota.
        destruct (old_num z Hz) as (t & p & EP & Ht & Lp & GI). rewrite EP.
        rewrite (f_tag tb (tb_step val) req ver 0 0 tb_init _ p S_INT t); [| lia |].
        2:{ destruct (data_type_spec T_INT t) as [D1 D2]; [unfold T_INT; lia|lia|].
            unfold value_type_arm. cbv zeta. rewrite D1, D2.
            change (T_INT =? T_BOOL) with false. change (T_INT =? T_NULL) with false. change (T_INT =? T_INT) with true.
            cbn [idle c_ver]. rewrite H1. change (2 <? 1) with false. cbv iota.
            unfold versioned_length_size. rewrite D2.
            destruct ((t =? 0) || (4 <? t)) eqn:E; [apply orb_true_iff in E; lia|]. reflexivity. }
        assert (CS : cinv (set_state S_INT (idle ver 0 0)) t).
        { apply set_cinv; [lia|reflexivity|]. cbn. lia. }
        rewrite <- (app_nil_r p).
        erewrite (f_payload tb (tb_step val) req ver 0 0 S_INT t tb_init p [] (EInt (z mod 2 ^ 32)) 0 0 _ ltac:(lia) CS Lp).
        - reflexivity.
        - intro s. erewrite body_num with (k := fun d =>
            let n := get_int64 d in
            scalar tb (tb_step val) (set_state S_INT (idle ver 0 0)) tb_init (EInt (if 2 <? v_major ver then zigzag_decode n else n)));
            [|exact Lp|lia|reflexivity].
          cbv zeta. rewrite GI, H1. reflexivity.
        - reflexivity. }
    reflexivity.
  Qed.
End Old.
