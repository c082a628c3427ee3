(** Sizes announced to the builder. *)
From Coq Require Import Lia.
From Verif Require Import Base Value M_Marshal M_BinUnmarshal S_Events S_Value L_Base L_Bits L_BinUnmarshal L_BinSafety
  L_Nesting L_Morph L_RoundTrip L_Truncate.

Section Bound.
  Variable B : Type.
  Variable bstep0 : B -> event -> B * option fail.
  Variable req : Z.
  Notation bstep := (traced bstep0).
  Notation T := (B * list event)%type.
  Notation body := (body T bstep req).
  Notation emit := (emit T bstep).
  Notation scalar := (scalar T bstep).
  Notation decrement := (decrement T bstep).
  Notation dec_members := (dec_members T bstep).
  Notation lbig := (lbig T bstep req).

  Definition bnd (b : T) : Prop := Forall bounded (snd b).

  Definition bres_bnd (r : bres T) : Prop :=
    match r with Next _ _ b' _ _ => bnd b' | Stop _ => True | Bad _ _ b' _ => bnd b' end.

  Lemma step_bnd : forall b e b' f, bnd b -> bounded e -> bstep b e = (b', f) -> bnd b'.
  Proof.
    intros b e b' f H HE E. apply traced_snd in E. unfold bnd. rewrite E.
    apply Forall_app. split; auto.
  Qed.

  Lemma emit_bnd : forall c b e c' b' f, bnd b -> bounded e -> emit c b e = (c', b', f) -> bnd b'.
  Proof.
    intros c b e c' b' f H HE E. unfold M_BinUnmarshal.emit in E.
    destruct (c_fault c =? 0).
    - destruct (bstep b e) as [b1 f1] eqn:E1. inversion E; subst. eapply step_bnd; eauto.
    - destruct e; cbn [fault_step] in E; try (inversion E; subst; auto; fail).
      + destruct (c_fault c =? 1); inversion E; subst; auto.
      + destruct (c_fault c =? 2); [|inversion E; subst; auto].
        destruct (bstep b _) as [b1 f1] eqn:E1.
        assert (bnd b1). { eapply step_bnd; [exact H| |exact E1]. cbn [bounded] in *. split; auto.
          exact (signed_range 32 _ ltac:(lia)). }
        destruct f1; inversion E; subst; auto.
  Qed.

  Lemma scalar_bnd : forall c b e, bnd b -> bounded e -> bres_bnd (scalar c b e).
  Proof.
    intros c b e H HE. unfold M_BinUnmarshal.scalar. destruct (emit c b e) as [[c1 b1] [f|]] eqn:E;
      apply emit_bnd in E; auto.
  Qed.

  Lemma container_bnd : forall k c b d, bnd b -> bres_bnd (container_arm T bstep k c b d).
  Proof.
    intros k c b d H. unfold container_arm. cbv zeta.
    destruct (get_int64 d <? 0) eqn:E1; [exact H|]. destruct (negb _); [exact H|].
    destruct (element_size_limit <=? get_int64 d) eqn:E3; [exact H|]. unfold element_size_limit in E3.
    assert (BE : bounded (match k with KStruct => EOpenStruct (get_int64 d) | KArray => EOpenArray (get_int64 d) end)).
    { destruct k; cbn [bounded]; lia. }
    destruct (emit c b _) as [[c1 b1] [f|]] eqn:E; apply emit_bnd in E; auto.
    destruct (negb _); [exact E|].
    destruct (emit c1 b1 _) as [[c2 b2] [f|]] eqn:E2; apply emit_bnd in E2; auto; destruct k; exact I.
  Qed.

  Lemma value_type_bnd : forall known c b t, bnd b -> bres_bnd (value_type_arm T bstep known c b t).
  Proof.
    intros known c b t H. unfold value_type_arm. cbv zeta.
    repeat match goal with
    | |- bres_bnd (if ?x then _ else _) => destruct x
    | |- bres_bnd (match ?x with Some _ => _ | None => _ end) => destruct x
    end; try exact I; try exact H; apply scalar_bnd; auto; exact I.
  Qed.

  Lemma body_bnd : forall known c b w s, cinv c w -> bnd b -> bres_bnd (body known c b w s).
  Proof.
    intros known c b w s (W & _ & _) H. unfold M_BinUnmarshal.body. cbv zeta. unfold wok in W.
    assert (BL : (zlen s <? w) = false -> 0 <= w -> blen (ztake w s) = w).
    { intros X Y. rewrite blen_zlen. apply zlen_ztake. lia. }
    unfold element_size_limit in W.
    assert (EM : forall e st w fin, bounded e -> bres_bnd (match emit c b e with
        | (c1, b1, None) => Next T (set_state st c1) b1 w fin
        | (c1, b1, Some f) => Bad T c1 b1 f
        end)).
    { intros e st w1 fin HE. destruct (emit c b e) as [[c1 b1] [f|]] eqn:E; apply emit_bnd in E; auto. }
    destruct (c_state c) eqn:ES;
      repeat match goal with
      | |- bres_bnd (if ?x then _ else _) => destruct x eqn:?
      | |- bres_bnd (match ?x with Some _ => _ | None => _ end) => destruct x
      | |- bres_bnd (match ?x with [] => _ | _ :: _ => _ end) => destruct x
      end; try exact I; try exact H; try (apply scalar_bnd; auto; exact I);
      try (apply value_type_bnd; auto; fail); try (apply container_bnd; auto; fail);
      try (unfold length_arm; cbv zeta; destruct (_ <=? _); exact H);
      try (apply EM; cbn [bounded]; rewrite ?BL by (auto; lia); try lia; exact I).
  Qed.

  Lemma dec_members_bnd : forall stk b stk' b' f, bnd b -> dec_members stk b = (stk', b', f) -> bnd b'.
  Proof.
    induction stk as [|[n k] r IH]; intros b stk' b' f H E; cbn [M_BinUnmarshal.dec_members] in E.
    - inversion E; subst; auto.
    - cbv zeta in E. destruct (negb _); [inversion E; subst; auto|].
      destruct (bstep b _) as [b1 [g|]] eqn:E1; apply step_bnd in E1; auto; try (destruct k; exact I).
      + inversion E; subst; auto.
      + eapply IH; eauto.
  Qed.

  Lemma decrement_bnd : forall fin c b c' b' f, bnd b -> decrement fin c b = (c', b', f) -> bnd b'.
  Proof.
    intros [|] c b c' b' f H E; cbn [M_BinUnmarshal.decrement] in E; [|inversion E; subst; auto].
    destruct (dec_members (c_stack c) b) as [[s b1] g] eqn:E1. inversion E; subst. eapply dec_members_bnd; eauto.
  Qed.

  Lemma lbig_bnd : forall known c w b s, cinv c w -> bnd b ->
    bnd (snd (fst (fst (lbig known c w b s)))).
  Proof.
    intros known c w b s I. apply (lbig_ind T bstep req known (fun c w b s res => bnd b ->
      bnd (snd (fst (fst res))))); auto; clear c w b s I.
    - intros c w b s c1 b1 f I L HB H. pose proof (body_bnd known c b w s I H) as X. rewrite HB in X. exact X.
    - intros c w b s c1 b1 w1 fin c2 b2 f I L HB I1 HD H.
      pose proof (body_bnd known c b w s I H) as X. rewrite HB in X. exact (decrement_bnd _ _ _ _ _ _ X HD).
    - intros c w b s c1 b1 w1 fin c2 b2 r0 I L HB HD I1 I2 E IH H. apply IH.
      pose proof (body_bnd known c b w s I H) as X. rewrite HB in X. exact (decrement_bnd _ _ _ _ _ _ X HD).
  Qed.

  Lemma unmarshall_all_bnd : forall pieces u b u' b' f, ready u -> bnd b ->
    unmarshall_all T bstep req u b pieces = (u', b', f) -> bnd b'.
  Proof.
    induction pieces as [|p ps IH]; intros u b u' b' f R H E; cbn [unmarshall_all] in E.
    - inversion E; subst; auto.
    - destruct (unmarshall T bstep req u b p) as [[u1 b1] g] eqn:E1.
      pose proof (unmarshall_ready T bstep req u b p) as UR. rewrite E1 in UR.
      rewrite unmarshall_lbig in E1 by auto.
      pose proof (lbig_bnd false (u_core u) (u_wanted u) b (u_buffer u ++ p) (proj1 R) H) as X.
      destruct (lbig false (u_core u) (u_wanted u) b (u_buffer u ++ p)) as [[[[c w] b2] r] e].
      cbn [fst snd] in X. inversion E1; subst. destruct (fail_of e).
      + inversion E; subst; auto.
      + eapply IH; [|exact X|exact E]. eapply UR; eauto.
  Qed.
End Bound.

(** An oversized announcement where a value is expected. *)
Section Refuse.
  Variable B : Type.
  Variable bstep : B -> event -> B * option fail.
  Variable req : Z.
  Variable ver : version.
  Hypothesis HM : modern ver.

  Lemma oversize_refused : forall c b T k p rest,
    at_value ver c -> T = T_STRING \/ T = T_BINARY \/ T = T_ARRAY \/ T = T_STRUCT ->
    0 <= k <= 7 -> zlen p = k + 1 -> 2 ^ 30 <= le_val p ->
    exists c' m, lbig B bstep req false c 1 b (data_type T k :: p ++ rest) =
      (c', k + 1, b, p ++ rest, Failed (Exn (StreamError m))).
  Proof.
    intros c b T k p rest A HT Hk Lp HL.
    assert (A0 := A). destruct A0 as (I & F & V & S).
    pose proof (maj2 ver HM) as M2.
    pose proof (zlen_nonneg _ rest) as R0.
    assert (LT : zlen (p ++ rest) <? k + 1 = false) by (rewrite zlen_app; apply Z.ltb_ge; lia).
    assert (L8 : 8 <? k + 1 = false) by (apply Z.ltb_ge; lia).
    assert (LE : k + 1 <=? zlen (p ++ rest) = true) by (rewrite zlen_app; apply Z.leb_le; lia).
    assert (GI : get_int64 p < 0 \/ 2 ^ 30 <= get_int64 p).
    { unfold get_int64. pose proof (le_val_range p) as RG. 
      assert (le_val p < 2 ^ 64).
      { eapply Z.lt_le_trans; [apply RG|]. change (2 ^ 64) with (256 ^ 8).
        apply Z.pow_le_mono_r; unfold zlen in *; lia. }
      unfold s64, signed. cbv zeta. rewrite Z.mod_small by lia.
      destruct (le_val p <? 2 ^ (64 - 1)) eqn:E; lia. }
    assert (GR : in_s64 (get_int64 p)) by (apply (signed_range 64); lia).
    assert (TG : exists st, value_type_arm B bstep false c b (data_type T k) = Next B (set_state st c) b (k + 1) false
      /\ (st = S_STRING_LEN \/ st = S_BINARY_LEN \/ st = S_ARRAY \/ st = S_STRUCT)).
    { destruct (data_type_spec T k) as [D1 D2]; [destruct HT as [-> |[-> |[-> | ->]]]; unfold T_STRING, T_BINARY, T_ARRAY, T_STRUCT; lia|lia|].
      unfold value_type_arm. cbv zeta. rewrite D1. rewrite V.
      destruct HT as [-> |[-> |[-> | ->]]];
        unfold T_BOOL, T_NULL, T_INT, T_INTN8, T_INTP8, T_DOUBLE, T_DATETIME, T_STRING, T_BINARY, T_ARRAY, T_STRUCT;
        cbn [Z.eqb Pos.eqb]; eexists; (split; [apply len_arm; [apply Z.leb_le; lia|exact D2]|auto]). }
    destruct TG as (st & TG & SC).
    rewrite (step_tag_data B bstep req ver c b _ _ st (k + 1) A TG).
    assert (CI : cinv (set_state st c) (k + 1)).
    { eapply cinv_set; eauto; destruct SC as [-> |[-> |[-> | ->]]]; cbn; auto; lia. }
    rewrite lbig_eq by exact CI. rewrite LE.
    assert (TK : ztake (k + 1) (p ++ rest) = p) by (apply ztake_app'; auto).
    assert (LEN : forall st2 m, exists c' m', 
      length_arm B st2 m (set_state st c) b p = Bad B c' b (Exn (StreamError m'))).
    { intros st2 m. unfold length_arm. cbv zeta.
      destruct (element_size_limit <=? u64 (get_int64 p)) eqn:E; [unfold throw; eauto|].
      exfalso. unfold element_size_limit in E. unfold u64, unsigned in E.
      unfold in_s64 in GR. destruct GI as [G|G].
      - rewrite <- (Z.mod_add _ 1) in E by lia. rewrite Z.mod_small in E by lia. lia.
      - rewrite Z.mod_small in E by lia. lia. }
    assert (CON : forall kd, exists c' m',
      container_arm B bstep kd (set_state st c) b p = Bad B c' b (Exn (StreamError m'))).
    { intro kd. unfold container_arm. cbv zeta.
      destruct (get_int64 p <? 0) eqn:E1; [unfold throw; eauto|].
      destruct (negb _); [unfold throw; eauto|].
      destruct (element_size_limit <=? get_int64 p) eqn:E3; [unfold throw; eauto|].
      unfold element_size_limit in E3. lia. }
    unfold M_BinUnmarshal.body. cbn [set_state c_state].
    change (mkCore st (c_stack c) (c_errno c) (c_fault c) (c_ver c)) with (set_state st c).
    destruct SC as [-> |[-> |[-> | ->]]]; rewrite LT, L8; cbn [orb]; rewrite TK.
    - destruct (LEN S_STRING "String entity too large"%string) as (c' & m' & ->). eauto.
    - destruct (LEN S_BINARY "Binary entity too large"%string) as (c' & m' & ->). eauto.
    - destruct (CON KArray) as (c' & m' & ->). eauto.
    - destruct (CON KStruct) as (c' & m' & ->). eauto.
  Qed.
End Refuse.
