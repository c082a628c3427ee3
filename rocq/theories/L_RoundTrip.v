(** Decoding what the binary marshaller wrote. *)
From Coq Require Import Lia.
From Verif Require Import Base Value M_Marshal M_BinUnmarshal S_Value S_Events L_Base L_Bits L_BinUnmarshal.

Lemma replay_app : forall B (bstep : B -> event -> B * option fail) a c b,
  replay bstep b (a ++ c) =
  match replay bstep b a with (b', None) => replay bstep b' c | r => r end.
Proof.
  induction a as [|e a IH]; intros c b; simpl; auto.
  destruct (bstep b e) as [b' [f|]]; auto.
Qed.

Lemma replay_app_ok : forall B (bstep : B -> event -> B * option fail) a c b b',
  replay bstep b (a ++ c) = (b', None) ->
  exists b1, replay bstep b a = (b1, None) /\ replay bstep b1 c = (b', None).
Proof.
  intros B bstep a c b b' H. rewrite replay_app in H.
  destruct (replay bstep b a) as [b1 [f|]]; [discriminate|]. eauto.
Qed.

(** Structure of marshaller runs. *)
Lemma bin_run_app : forall v a c,
  bin_run v (a ++ c) =
  match bin_run v a with
  | (o, None) => let '(o', f) := bin_run v c in (o ++ o', f)
  | r => r
  end.
Proof.
  induction a as [|x a IH]; intros c; cbn [bin_run app].
  - destruct (bin_run v c); reflexivity.
  - destruct (bin_pack v x) as [o [f|]]; auto. rewrite IH.
    destruct (bin_run v a) as [o1 [f1|]]; auto. destruct (bin_run v c) as [o2 f2].
    rewrite app_assoc. reflexivity.
Qed.

Definition feed_members (m : list (bytes * value)) : list mcall :=
  flat_map (fun kv => PMember (fst kv) :: feed (snd kv)) m.

Lemma feed_struct : forall m, feed (VStruct m) = PStruct (u32 (zlen m)) :: feed_members m.
Proof.
  intro m. cbn [feed]. apply (f_equal (cons _)). induction m as [|[k x] r IH]; [reflexivity|].
  unfold feed_members in *. cbn [flat_map fst snd app]. rewrite IH. reflexivity.
Qed.

Lemma feed_array : forall l, feed (VArray l) = PArray (u32 (zlen l)) :: flat_map feed l.
Proof.
  intro l. cbn [feed]. apply (f_equal (cons _)). induction l as [|x r IH]; [reflexivity|].
  cbn [flat_map]. rewrite IH. reflexivity.
Qed.

Lemma wf_struct : forall ver m, wf ver (VStruct m) ->
  small (zlen m) /\ increasing m /\ Forall (fun kv => 1 <= blen (fst kv) <= 255 /\ wf ver (snd kv)) m.
Proof.
  intros ver m H. cbn [wf] in H. destruct H as (H1 & H2 & H3). split; auto. split; auto.
  clear H1 H2. induction m as [|[k x] r IH]; constructor; destruct H3 as (A & B & C); auto.
Qed.

Lemma wf_array : forall ver l, wf ver (VArray l) -> small (zlen l) /\ Forall (wf ver) l.
Proof.
  intros ver l H. cbn [wf] in H. destruct H as (H1 & H3). split; auto.
  clear H1. induction l as [|x r IH]; constructor; destruct H3 as (A & B); auto.
Qed.

(** [wf] without the order of the members. *)
Fixpoint wfu (ver : version) (v : value) : Prop :=
  match v with
  | VStruct m =>
      small (zlen m) /\
      (fix all (l : list (bytes * value)) : Prop := match l with [] => True | (k, x) :: r => 1 <= blen k <= 255 /\ wfu ver x /\ all r end) m
  | VArray l => small (zlen l) /\ (fix all (l : list value) : Prop := match l with [] => True | x :: r => wfu ver x /\ all r end) l
  | VSecret x => wfu ver x
  | x => wf ver x
  end.
Lemma wfu_struct : forall ver m, wfu ver (VStruct m) <->
  small (zlen m) /\ Forall (fun kv => 1 <= blen (fst kv) <= 255 /\ wfu ver (snd kv)) m.
Proof.
  intros ver m. cbn [wfu]. assert (X : forall P Q R : Prop, (Q <-> R) -> (P /\ Q <-> P /\ R)) by tauto. apply X. clear X.
  induction m as [|[k x] r IH]; [split; auto|]. rewrite IH. split.
  - intros (A & B & C). constructor; auto.
  - intro F. inversion F; subst. cbn [fst snd] in *. tauto.
Qed.
Lemma wfu_array : forall ver l, wfu ver (VArray l) <-> small (zlen l) /\ Forall (wfu ver) l.
Proof.
  intros ver l. cbn [wfu]. assert (X : forall P Q R : Prop, (Q <-> R) -> (P /\ Q <-> P /\ R)) by tauto. apply X. clear X.
  induction l as [|x r IH]; [split; auto|]. rewrite IH. split.
  - intros (A & B). constructor; auto.
  - intro F. inversion F; subst. tauto.
Qed.
Lemma wf_wfu : forall ver v, wf ver v -> wfu ver v.
Proof.
  induction v using value_nested_ind; intro W; try exact W.
  - apply wf_struct in W. destruct W as (A & _ & F). apply wfu_struct. split; auto. rewrite Forall_forall in *. intros kv I. specialize (F kv I). specialize (H kv I). tauto.
  - apply wf_array in W. destruct W as (A & F). apply wfu_array. split; auto. rewrite Forall_forall in *. auto.
  - exact (IHv W).
Qed.

Section Decode.
  Variable B : Type.
  Variable bstep : B -> event -> B * option fail.
  Variable req : Z.
  Variable ver : version.
  Hypothesis HV : modern ver.

  Notation body := (body B bstep req).
  Notation emit := (emit B bstep).
  Notation scalar := (scalar B bstep).
  Notation decrement := (decrement B bstep).
  Notation dec_members := (dec_members B bstep).
  Notation lbig := (lbig B bstep req false).
  Notation replay := (replay bstep).

  Lemma maj2 : 2 <= v_major ver.
  Proof. destruct HV as [[->| ->] _]; lia. Qed.
  Lemma maj_cases : v_major ver = 2 \/ v_major ver = 3.
  Proof. apply HV. Qed.

  (** A point where a value is expected. *)
  Definition at_value (c : core) : Prop :=
    cinv c 1 /\ c_fault c = 0 /\ c_ver c = ver
    /\ ((c_state c = S_VALUE_TYPE /\ in_struct c = false) \/ c_state c = S_REAL_VALUE_TYPE).

  Definition done (stk : list (Z * kind)) (c : core) : core := set_stack stk (set_state S_VALUE_TYPE c).

  (** Claim for a value. *)
  Definition decodes (v : value) : Prop :=
    forall c b rest b' stk b2, at_value c ->
      replay b (events v) = (b', None) ->
      dec_members (c_stack c) b' = (stk, b2, None) ->
      snd (bin_run ver (feed v)) = None /\
      lbig c 1 b (fst (bin_run ver (feed v)) ++ rest) = lbig (done stk c) 1 b2 rest.

  Lemma body_at_value : forall c b t s, at_value c ->
    body false c b 1 (t :: s) = value_type_arm B bstep false c b t.
  Proof.
    intros c b t s (I & F & V & [[S N]|S]); unfold M_BinUnmarshal.body; rewrite S; [rewrite N|]; reflexivity.
  Qed.

  Lemma scalar_ok : forall c b e b', c_fault c = 0 -> bstep b e = (b', None) ->
    scalar c b e = Next B (set_state S_VALUE_TYPE c) b' 1 true.
  Proof.
    intros c b e b' F H. unfold M_BinUnmarshal.scalar, M_BinUnmarshal.emit. rewrite F. cbn [Z.eqb].
    rewrite H. reflexivity.
  Qed.

  Lemma finish_value : forall c b' stk b2, 
    dec_members (c_stack c) b' = (stk, b2, None) ->
    decrement true (set_state S_VALUE_TYPE c) b' = (done stk c, b2, None).
  Proof.
    intros c b' stk b2 H. unfold M_BinUnmarshal.decrement. cbn [set_state c_stack]. rewrite H. reflexivity.
  Qed.

  (** A tag alone is a complete value. *)
  Lemma step_tag_scalar : forall c b t s e b' stk b2, at_value c ->
    value_type_arm B bstep false c b t = scalar c b e ->
    bstep b e = (b', None) -> dec_members (c_stack c) b' = (stk, b2, None) ->
    lbig c 1 b (t :: s) = lbig (done stk c) 1 b2 s.
  Proof.
    intros c b t s e b' stk b2 A HT HB HD. rewrite lbig_eq by apply A.
    rewrite zlen_cons. pose proof (zlen_nonneg _ s). destruct (1 <=? 1 + zlen s) eqn:E; [|lia].
    rewrite body_at_value by auto. rewrite HT. rewrite (scalar_ok _ _ _ b') by (auto; apply A).
    rewrite (finish_value _ _ _ _ HD). reflexivity.
  Qed.

  (** A tag that asks for [n] bytes in state [st]. *)
  Lemma step_tag_data : forall c b t s st n, at_value c ->
    value_type_arm B bstep false c b t = Next B (set_state st c) b n false ->
    lbig c 1 b (t :: s) = lbig (set_state st c) n b s.
  Proof.
    intros c b t s st n A HT. rewrite lbig_eq by apply A.
    rewrite zlen_cons. pose proof (zlen_nonneg _ s). destruct (1 <=? 1 + zlen s) eqn:E; [|lia].
    rewrite body_at_value by auto. rewrite HT. reflexivity.
  Qed.

  (** The payload completes a scalar. *)
  Lemma step_payload : forall c st n b p s e b' stk b2, at_value c ->
    cinv (set_state st c) n -> zlen p = n ->
    (forall s, body false (set_state st c) b n (p ++ s) = scalar (set_state st c) b e) ->
    bstep b e = (b', None) -> dec_members (c_stack c) b' = (stk, b2, None) ->
    lbig (set_state st c) n b (p ++ s) = lbig (done stk c) 1 b2 s.
  Proof.
    intros c st n b p s e b' stk b2 A I L HBd HB HD. rewrite lbig_eq by auto.
    rewrite zlen_app. pose proof (zlen_nonneg _ s). destruct (n <=? zlen p + zlen s) eqn:E; [|lia].
    rewrite HBd. rewrite (scalar_ok _ _ _ b') by (auto; apply A).
    change (set_state S_VALUE_TYPE (set_state st c)) with (set_state S_VALUE_TYPE c).
    rewrite (finish_value _ _ _ _ HD). rewrite zdrop_app' by auto. reflexivity.
  Qed.

  Lemma cinv_set : forall c st n, at_value c -> head_state st = false ->
    wok (set_state st c) n -> cinv (set_state st c) n.
  Proof.
    intros c st n ((W & I & H) & _) HS WK. split; auto. split; [exact I|].
    intro X. cbn [set_state c_state] in X. congruence.
  Qed.

  Lemma len_arm : forall c b t st longer n, 
    longer = true -> Z.land (b2z t) 7 = n ->
    match versioned_length_size longer (b2z t) with
    | Some n => Next B (set_state st c) b n false
    | None => throw B c b "Illegal element length"
    end = Next B (set_state st c) b (n + 1) false.
  Proof. intros c b t st longer n -> <-. reflexivity. Qed.

  Ltac tag T t :=
    let H1 := fresh in let H2 := fresh in
    destruct (data_type_spec T t) as [H1 H2]; [unfold T; lia|lia|];
    unfold value_type_arm; cbv zeta; rewrite H1, ?H2;
    unfold T_BOOL, T_NULL, T_INT, T_INTN8, T_INTP8, T_DOUBLE, T_DATETIME, T_STRING, T_BINARY, T_ARRAY, T_STRUCT;
    cbn [Z.eqb Pos.eqb].

  Lemma body_num : forall c st n b p s k,
    zlen p = n -> 1 <= n <= 8 ->
    (forall d, body false (set_state st c) b n d =
       if (zlen d <? n) || (8 <? n) then Bad B (set_state st c) b Undef else k (ztake n d)) ->
    body false (set_state st c) b n (p ++ s) = k p.
  Proof.
    intros c st n b p s k L N H. rewrite H. rewrite zlen_app. pose proof (zlen_nonneg _ s).
    destruct (zlen p + zlen s <? n) eqn:E1; [lia|]. destruct (8 <? n) eqn:E2; [lia|]. cbn [orb].
    rewrite ztake_app' by auto. reflexivity.
  Qed.

  Lemma body_dat : forall c st n b p s k,
    zlen p = n ->
    (forall d, body false (set_state st c) b n d =
       if (zlen d <? n) then Bad B (set_state st c) b Undef else k (ztake n d)) ->
    body false (set_state st c) b n (p ++ s) = k p.
  Proof.
    intros c st n b p s k L H. rewrite H. rewrite zlen_app. pose proof (zlen_nonneg _ s).
    destruct (zlen p + zlen s <? n) eqn:E1; [lia|]. rewrite ztake_app' by auto. reflexivity.
  Qed.

  Lemma replay_one : forall b e b', replay b [e] = (b', None) -> bstep b e = (b', None).
  Proof.
    intros b e b' H. cbn [S_Value.replay] in H. destruct (bstep b e) as [b1 [f|]]; congruence.
  Qed.

  Lemma bin_one : forall c o, bin_pack ver c = (o, None) -> bin_run ver [c] = (o, None).
  Proof. intros c o H. cbn [bin_run]. rewrite H. rewrite app_nil_r. reflexivity. Qed.

  (** Integers. *)
  Lemma decodes_int : forall z, in_s64 z -> decodes (VInt z).
  Proof.
    intros z Hz c b rest b' stk b2 A HR HD. apply replay_one in HR.
    cbn [feed]. erewrite bin_one by reflexivity. cbn [fst snd]. split; [reflexivity|].
    pose proof maj2 as M2. unfold pack_int. assert (A0 := A); destruct A0 as (I & F & V & S).
    destruct (2 <? v_major ver) eqn:E3.
    - (* zigzag *)
      assert (EU : u64 (zigzag_encode z) = u64 (s64 (zigzag_encode z))).
      { pose proof (zigzag_range z Hz) as R.
        unfold u64, s64, unsigned, signed. cbv zeta. unfold in_u64 in R.
        rewrite (Z.mod_small (zigzag_encode z)) by lia.
        destruct (zigzag_encode z <? 2 ^ (64 - 1)); [symmetry; apply Z.mod_small; lia|].
        replace (zigzag_encode z - 2 ^ 64) with (zigzag_encode z + (-1) * 2 ^ 64) by lia.
        rewrite Z.mod_add by lia. symmetry. apply Z.mod_small. lia. }
      destruct (pack_num_decode ver T_INT (s64 (zigzag_encode z)) (zigzag_encode z)) as (t & p & EP & Ht & Lp & GI);
        auto; [exact (signed_range 64 _ ltac:(lia))|].
      rewrite EP. cbn [app].
      rewrite (step_tag_data c b _ _ S_INT (t + 1)); auto.
      2:{ tag T_INT t. rewrite V. apply len_arm; auto. }
      eapply step_payload; eauto.
      + apply cinv_set; auto. cbn. lia.
      + intro s. erewrite body_num with (k := fun d =>
          let n := get_int64 d in
          scalar (set_state S_INT c) b (EInt (if 2 <? v_major (c_ver c) then zigzag_decode n else n)));
          [|exact Lp|lia|reflexivity].
        cbv zeta. rewrite GI, V, E3, zigzag_roundtrip by auto. reflexivity.
    - assert (E1 : 1 <? v_major ver = true) by lia. rewrite E1.
      destruct (z <? 0) eqn:EN.
      + destruct (pack_num_decode ver T_INTN8 (s64 (safe_abs z)) (safe_abs z)) as (t & p & EP & Ht & Lp & GI);
          auto; [exact (signed_range 64 _ ltac:(lia))| |].
        { unfold safe_abs. rewrite EN. unfold u64, s64, unsigned, signed. cbv zeta.
          set (x := (Z.lnot z mod 2 ^ 64 + 1) mod 2 ^ 64).
          assert (0 <= x < 2 ^ 64) by (apply Z.mod_pos_bound; lia).
          rewrite (Z.mod_small x) by lia.
          destruct (x <? 2 ^ (64 - 1)); [symmetry; apply Z.mod_small; lia|].
          replace (x - 2 ^ 64) with (x + (-1) * 2 ^ 64) by lia.
          rewrite Z.mod_add by lia. symmetry. apply Z.mod_small. lia. }
        rewrite EP. cbn [app].
        rewrite (step_tag_data c b _ _ S_INTN8 (t + 1)); auto.
        2:{ tag T_INTN8 t. reflexivity. }
        eapply step_payload; eauto.
        * apply cinv_set; auto. cbn. lia.
        * intro s. erewrite body_num with (k := fun d =>
            scalar (set_state S_INTN8 c) b (EInt (safe_negate (get_int64 d))));
            [|exact Lp|lia|reflexivity].
          cbv beta. rewrite GI, safe_abs_negate by (auto; lia). reflexivity.
      + destruct (pack_num_decode ver T_INTP8 z z) as (t & p & EP & Ht & Lp & GI); auto.
        rewrite EP. cbn [app].
        rewrite (step_tag_data c b _ _ S_INTP8 (t + 1)); auto.
        2:{ tag T_INTP8 t. reflexivity. }
        eapply step_payload; eauto.
        * apply cinv_set; auto. cbn. lia.
        * intro s. erewrite body_num with (k := fun d =>
            scalar (set_state S_INTP8 c) b (EInt (get_int64 d)));
            [|exact Lp|lia|reflexivity].
          cbv beta. rewrite GI. reflexivity.
  Qed.

  (** Strings and binaries: the length, then the data. *)
  Lemma pack_len : forall tag n, 0 <= n < 2 ^ 32 ->
    exists t p, pack_num ver tag n n = data_type tag t :: p /\ 0 <= t <= 7 /\ zlen p = t + 1
              /\ get_int64 p = n.
  Proof.
    intros tag n H. apply pack_num_decode; auto; [apply maj2|unfold in_s64; lia].
  Qed.

  Lemma decodes_bytes : forall tag st1 st2 msg s ev c b rest b' stk b2,
    (tag = T_STRING /\ st1 = S_STRING_LEN /\ st2 = S_STRING /\ msg = "String entity too large"%string
       /\ ev = EString s)
    \/ (tag = T_BINARY /\ st1 = S_BINARY_LEN /\ st2 = S_BINARY /\ msg = "Binary entity too large"%string
       /\ ev = EBinary s) ->
    small (blen s) -> at_value c -> bstep b ev = (b', None) -> dec_members (c_stack c) b' = (stk, b2, None) ->
    lbig c 1 b ((pack_num ver tag (blen s) (blen s) ++ s) ++ rest) = lbig (done stk c) 1 b2 rest.
  Proof.
    intros tag st1 st2 msg s ev c b rest b' stk b2 K Sm A HB HD.
    assert (BL : 0 <= blen s < 2 ^ 32) by (unfold small in Sm; lia).
    destruct (pack_len tag (blen s) BL) as (t & p & EP & Ht & Lp & GI).
    rewrite EP. cbn [app]. rewrite <- app_assoc.
    pose proof maj2 as M2. assert (A0 := A); destruct A0 as (I & F & V & S).
    assert (T1 : value_type_arm B bstep false c b (data_type tag t) = Next B (set_state st1 c) b (t + 1) false).
    { destruct K as [(-> & -> & _)|(-> & -> & _)].
      - tag T_STRING t. rewrite V. apply len_arm; auto. lia.
      - tag T_BINARY t. rewrite V. apply len_arm; auto. lia. }
    rewrite (step_tag_data c b _ _ st1 (t + 1)) by auto.
    assert (C1 : cinv (set_state st1 c) (t + 1)).
    { apply cinv_set; auto; destruct K as [(_ & -> & _)|(_ & -> & _)]; cbn; auto; lia. }
    rewrite lbig_eq by auto. rewrite zlen_app. pose proof (zlen_nonneg _ (s ++ rest)).
    destruct (t + 1 <=? zlen p + zlen (s ++ rest)) eqn:E; [|lia].
    assert (B1 : body false (set_state st1 c) b (t + 1) (p ++ s ++ rest) =
                 Next B (set_state st2 c) b (blen s) false).
    { rewrite (body_num c st1 (t + 1) b p (s ++ rest)
        (length_arm B st2 msg (set_state st1 c) b)); auto; try lia.
      - unfold length_arm. cbv zeta. rewrite GI. rewrite u64_id by (unfold in_u64; lia).
        unfold small, element_size_limit in *. destruct (1073741824 <=? blen s) eqn:X; [lia|]. reflexivity.
      - intro d. unfold M_BinUnmarshal.body. destruct K as [(_ & -> & -> & -> & _)|(_ & -> & -> & -> & _)]; reflexivity. }
    rewrite B1. cbn [M_BinUnmarshal.decrement]. rewrite zdrop_app' by auto.
    eapply step_payload; eauto.
    - apply cinv_set; auto; destruct K as [(_ & _ & -> & _)|(_ & _ & -> & _)]; cbn; auto;
        unfold element_size_limit, small in *; lia.
    - intro s0. erewrite body_dat with (k := fun d => scalar (set_state st2 c) b
        (match ev with EString _ => EString d | EBinary _ => EBinary d | e => e end)); [|reflexivity|].
      + destruct K as [(_ & _ & _ & _ & ->)|(_ & _ & _ & _ & ->)]; reflexivity.
      + intro d. unfold M_BinUnmarshal.body. destruct K as [(_ & _ & -> & _ & ->)|(_ & _ & -> & _ & ->)]; reflexivity.
  Qed.

  (** Opening a container. *)
  Definition open_ev (k : kind) (n : Z) := match k with KStruct => EOpenStruct n | KArray => EOpenArray n end.
  Definition close_ev (k : kind) := match k with KStruct => ECloseStruct | KArray => ECloseArray end.
  Definition kind_tag (k : kind) := match k with KStruct => T_STRUCT | KArray => T_ARRAY end.

  Lemma open_common : forall k n c b rest b1,
    0 <= n < 2 ^ 30 -> at_value c -> bstep b (open_ev k n) = (b1, None) ->
    exists st w p, cinv (set_state st c) w /\ zlen p = w /\
      lbig c 1 b (pack_num ver (kind_tag k) n n ++ rest) = lbig (set_state st c) w b (p ++ rest) /\
      body false (set_state st c) b w (p ++ rest) =
        (if negb (n =? 0) then
           Next B (done ((n, k) :: c_stack c) c) b1 1 false
         else
           match bstep b1 (close_ev k) with
           | (b2, Some f) => Bad B (set_state st c) b2 f
           | (b2, None) => Next B (set_state S_VALUE_TYPE c) b2 1 true
           end).
  Proof.
    intros k n c b rest b1 Hn A HB.
    set (st := match k with KStruct => S_STRUCT | KArray => S_ARRAY end).
    assert (BL : 0 <= n < 2 ^ 32) by lia.
    destruct (pack_len (kind_tag k) n BL) as (t & p & EP & Ht & Lp & GI).
    rewrite EP. cbn [app].
    pose proof maj2 as M2. assert (A0 := A); destruct A0 as (I & F & V & S).
    assert (T1 : value_type_arm B bstep false c b (data_type (kind_tag k) t) = Next B (set_state st c) b (t + 1) false).
    { unfold kind_tag, st. destruct k.
      - tag T_STRUCT t. rewrite V. apply len_arm; auto. lia.
      - tag T_ARRAY t. rewrite V. apply len_arm; auto. lia. }
    rewrite (step_tag_data c b _ _ st (t + 1)) by auto.
    exists st, (t + 1), p.
    assert (C1 : cinv (set_state st c) (t + 1)).
    { apply cinv_set; auto; unfold st; destruct k; cbn; auto; lia. }
    split; [exact C1|]. split; [exact Lp|]. split; [reflexivity|].
    rewrite (body_num c st (t + 1) b p rest (container_arm B bstep k (set_state st c) b)); auto; try lia.
    2:{ intro d. unfold M_BinUnmarshal.body, st. destruct k; reflexivity. }
    unfold container_arm. cbv zeta. rewrite GI.
    destruct (n <? 0) eqn:X1; [lia|].
    assert (SR : Z.shiftr n 32 = 0) by (rewrite Z.shiftr_div_pow2 by lia; apply Z.div_small; lia).
    rewrite SR. cbn [negb Z.eqb]. unfold element_size_limit.
    destruct (1073741824 <=? n) eqn:X2; [lia|].
    unfold M_BinUnmarshal.emit. cbn [set_state c_fault]. rewrite F. cbn [Z.eqb].
    change (match k with KStruct => EOpenStruct n | KArray => EOpenArray n end) with (open_ev k n).
    rewrite HB. cbn [set_state c_fault]. rewrite F. cbn [Z.eqb].
    change (match k with KStruct => ECloseStruct | KArray => ECloseArray end) with (close_ev k).
    destruct (n =? 0) eqn:X3; cbn [negb]; [|reflexivity].
    destruct (bstep b1 (close_ev k)) as [b2 [f|]]; reflexivity.
  Qed.

  Lemma open_some : forall k n c b rest b1,
    0 < n < 2 ^ 30 -> at_value c -> bstep b (open_ev k n) = (b1, None) ->
    lbig c 1 b (pack_num ver (kind_tag k) n n ++ rest) = lbig (done ((n, k) :: c_stack c) c) 1 b1 rest.
  Proof.
    intros k n c b rest b1 Hn A HB.
    destruct (open_common k n c b rest b1) as (st & w & p & C & Lp & E1 & E2); auto; try lia.
    rewrite E1, lbig_eq by auto. rewrite zlen_app. pose proof (zlen_nonneg _ rest).
    destruct (w <=? zlen p + zlen rest) eqn:X; [|lia]. rewrite E2.
    destruct (n =? 0) eqn:X0; [lia|]. cbn [negb M_BinUnmarshal.decrement].
    rewrite zdrop_app' by auto. reflexivity.
  Qed.

  Lemma open_none : forall k c b rest b1 b2 stk b3,
    at_value c -> bstep b (open_ev k 0) = (b1, None) -> bstep b1 (close_ev k) = (b2, None) ->
    dec_members (c_stack c) b2 = (stk, b3, None) ->
    lbig c 1 b (pack_num ver (kind_tag k) 0 0 ++ rest) = lbig (done stk c) 1 b3 rest.
  Proof.
    intros k c b rest b1 b2 stk b3 A HB HB2 HD.
    destruct (open_common k 0 c b rest b1) as (st & w & p & C & Lp & E1 & E2); auto; try lia.
    rewrite E1, lbig_eq by auto. rewrite zlen_app. pose proof (zlen_nonneg _ rest).
    destruct (w <=? zlen p + zlen rest) eqn:X; [|lia]. rewrite E2.
    cbn [negb Z.eqb]. rewrite HB2. rewrite (finish_value _ _ _ _ HD).
    rewrite zdrop_app' by auto. reflexivity.
  Qed.

  (** Items of an open array. *)
  Lemma at_value_array : forall c n stk, at_value c -> c_stack c = stk -> 0 < n < 2 ^ 30 ->
    at_value (done ((n, KArray) :: stk) c).
  Proof.
    intros c n stk ((W & (I1 & I2 & I3) & H) & F & V & S) ES Hn. 
    split; [|split; [exact F|split; [exact V|left; split; reflexivity]]].
    split; [reflexivity|]. split; [|intro X; discriminate X].
    split; [|split; [exact I2|]].
    - cbn. constructor; [cbn; unfold element_size_limit; lia|rewrite <- ES; auto].
    - cbn. congruence.
  Qed.

  Lemma dec_one : forall n k stk b, 0 < n < 2 ^ 30 ->
    dec_members ((n, k) :: stk) b =
    if n =? 1 then
      match bstep b (close_ev k) with
      | (b', None) => dec_members stk b'
      | (b', Some f) => ((0, k) :: stk, b', Some f)
      end
    else ((n - 1, k) :: stk, b, None).
  Proof.
    intros n k stk b Hn. cbn [M_BinUnmarshal.dec_members]. cbv zeta.
    rewrite u32_id by (unfold in_u32; lia).
    destruct (n =? 1) eqn:E; [assert (n = 1) by lia; subst; reflexivity|].
    destruct (n - 1 =? 0) eqn:E2; [lia|]. reflexivity.
  Qed.

  Lemma decodes_items : forall l, Forall decodes l -> l <> [] -> zlen l < 2 ^ 30 ->
    forall c b rest b' stk b2, at_value c ->
      replay b (flat_map events l ++ [ECloseArray]) = (b', None) ->
      dec_members (c_stack c) b' = (stk, b2, None) ->
      snd (bin_run ver (flat_map feed l)) = None /\
      lbig (done ((zlen l, KArray) :: c_stack c) c) 1 b (fst (bin_run ver (flat_map feed l)) ++ rest)
        = lbig (done stk c) 1 b2 rest.
  Proof.
    induction l as [|x l IH]; intros FA NE LL c b rest b' stk b2 A HR HD; [congruence|].
    inversion FA as [|? ? D1 D2]; subst. cbn [flat_map] in *.
    rewrite <- app_assoc in HR. apply replay_app_ok in HR. destruct HR as (b1 & R1 & R2).
    rewrite zlen_cons in *. pose proof (zlen_nonneg _ l) as L0.
    assert (A1 : at_value (done ((1 + zlen l, KArray) :: c_stack c) c)) by (apply at_value_array; auto; lia).
    rewrite bin_run_app.
    destruct l as [|y l].
    - (* last item *)
      cbn [flat_map app] in R2. apply replay_one in R2.
      assert (DD : dec_members ((1, KArray) :: c_stack c) b1 = (stk, b2, None)).
      { rewrite dec_one by lia. cbn [Z.eqb Pos.eqb close_ev]. rewrite R2. exact HD. }
      destruct (D1 _ b rest b1 stk b2 A1 R1 DD) as [P1 P2].
      cbn [flat_map]. rewrite zlen_nil in *.
      destruct (bin_run ver (feed x)) as [o f]. cbn [fst snd] in P1, P2. subst f.
      cbn [bin_run fst snd]. rewrite app_nil_r. split; [reflexivity|]. exact P2.
    - assert (DD : dec_members ((1 + zlen (y :: l), KArray) :: c_stack c) b1 =
                   ((zlen (y :: l), KArray) :: c_stack c, b1, None)).
      { rewrite dec_one by lia. rewrite zlen_cons in *. pose proof (zlen_nonneg _ l).
        destruct (1 + (1 + zlen l) =? 1) eqn:E; [lia|].
        replace (1 + (1 + zlen l) - 1) with (1 + zlen l) by lia. reflexivity. }
      destruct (D1 _ b (fst (bin_run ver (flat_map feed (y :: l))) ++ rest) b1 _ _ A1 R1 DD) as [P1 P2].
      destruct (IH D2 ltac:(discriminate) ltac:(lia) c b1 rest b' stk b2 A R2 HD) as [Q1 Q2].
      destruct (bin_run ver (feed x)) as [o f]. cbn [fst snd] in P1, P2. subst f.
      destruct (bin_run ver (flat_map feed (y :: l))) as [o' f']. cbn [fst snd] in *. subst f'.
      split; [reflexivity|]. rewrite <- app_assoc. rewrite P2. exact Q2.
  Qed.

  (** Members of an open struct. *)
  Lemma member_step : forall c n k b rest b1 stk, at_value c -> c_stack c = stk -> 0 < n < 2 ^ 30 ->
    1 <= blen k <= 255 -> bstep b (EMember k) = (b1, None) ->
    lbig (done ((n, KStruct) :: stk) c) 1 b ((z2b (blen k) :: k) ++ rest) =
    lbig (set_state S_REAL_VALUE_TYPE (done ((n, KStruct) :: stk) c)) 1 b1 rest
    /\ at_value (set_state S_REAL_VALUE_TYPE (done ((n, KStruct) :: stk) c)).
  Proof.
    intros c n k b rest b1 stk ((W & (I1 & I2 & I3) & H) & F & V & S) ES Hn Hk HB.
    assert (IN : cinv0 (done ((n, KStruct) :: stk) c)).
    { split; [|split; [exact I2|]].
      - cbn. constructor; [cbn; unfold element_size_limit; lia|rewrite <- ES; auto].
      - cbn. congruence. }
    assert (C1 : cinv (done ((n, KStruct) :: stk) c) 1).
    { split; [reflexivity|]. split; [exact IN|]. intro X; discriminate X. }
    split.
    2:{ split; [|split; [exact F|split; [exact V|right; reflexivity]]].
        split; [reflexivity|]. split; [exact IN|]. intro X; discriminate X. }
    cbn [app]. rewrite lbig_eq by auto. rewrite zlen_cons, zlen_app.
    pose proof (zlen_nonneg _ rest). change (zlen k) with (blen k).
    destruct (1 <=? 1 + (blen k + zlen rest)) eqn:E; [|lia].
    assert (B1 : body false (done ((n, KStruct) :: stk) c) b 1 (z2b (blen k) :: k ++ rest) =
      Next B (set_state S_MEMBER_NAME (done ((n, KStruct) :: stk) c)) b (blen k) false).
    { unfold M_BinUnmarshal.body. cbn [done set_stack set_state c_state in_struct c_stack].
      rewrite b2z_z2b_small by lia. destruct (blen k =? 0) eqn:X; [lia|]. reflexivity. }
    rewrite B1. cbn [M_BinUnmarshal.decrement].
    change (zdrop 1 (z2b (blen k) :: k ++ rest)) with (k ++ rest).
    assert (C2 : cinv (set_state S_MEMBER_NAME (done ((n, KStruct) :: stk) c)) (blen k)).
    { split; [cbn; lia|]. split; [exact IN|]. intro X; discriminate X. }
    rewrite lbig_eq by auto. rewrite zlen_app. change (zlen k) with (blen k).
    destruct (blen k <=? blen k + zlen rest) eqn:E2; [|lia].
    rewrite (body_dat _ _ (blen k) b k rest (fun s =>
      match emit (set_state S_MEMBER_NAME (done ((n, KStruct) :: stk) c)) b (EMember s) with
      | (c', b', None) => Next B (set_state S_REAL_VALUE_TYPE c') b' 1 false
      | (c', b', Some f) => Bad B c' b' f
      end)) by reflexivity.
    unfold M_BinUnmarshal.emit. cbn [set_state done set_stack c_fault]. rewrite F. cbn [Z.eqb].
    rewrite HB. cbn [M_BinUnmarshal.decrement]. rewrite zdrop_app' by reflexivity. reflexivity.
  Qed.

  Definition member_events (m : list (bytes * value)) : list event :=
    flat_map (fun kv => EMember (fst kv) :: events (snd kv)) m.

  Lemma decodes_members : forall m,
    Forall (fun kv => 1 <= blen (fst kv) <= 255 /\ decodes (snd kv)) m -> m <> [] -> zlen m < 2 ^ 30 ->
    forall c b rest b' stk b2, at_value c ->
      replay b (member_events m ++ [ECloseStruct]) = (b', None) ->
      dec_members (c_stack c) b' = (stk, b2, None) ->
      snd (bin_run ver (feed_members m)) = None /\
      lbig (done ((zlen m, KStruct) :: c_stack c) c) 1 b (fst (bin_run ver (feed_members m)) ++ rest)
        = lbig (done stk c) 1 b2 rest.
  Proof.
    induction m as [|[k x] l IH]; intros FA NE LL c b rest b' stk b2 A HR HD; [congruence|].
    inversion FA as [|? ? D1 D2]; subst. cbn [fst snd] in D1. destruct D1 as [Hk D1].
    unfold member_events in HR. cbn [flat_map fst snd app] in HR. cbn [S_Value.replay] in HR.
    destruct (bstep b (EMember k)) as [b0 [f|]] eqn:HB; [discriminate|].
    rewrite <- app_assoc in HR. apply replay_app_ok in HR. destruct HR as (b1 & R1 & R2).
    fold (member_events l) in R2.
    rewrite zlen_cons in *. pose proof (zlen_nonneg _ l) as L0.
    assert (BK : bin_pack ver (PMember k) = (z2b (blen k) :: k, None)).
    { cbn [bin_pack]. destruct (255 <? blen k) eqn:X1; [lia|]. destruct (blen k =? 0) eqn:X2; [lia|]. reflexivity. }
    unfold feed_members. cbn [flat_map fst snd app bin_run]. rewrite BK. fold (feed_members l).
    rewrite bin_run_app.
    pose proof (fun rest => member_step c (1 + zlen l) k b rest b0 (c_stack c) A eq_refl ltac:(lia) Hk HB) as MS.
    assert (A1 : at_value (set_state S_REAL_VALUE_TYPE (done ((1 + zlen l, KStruct) :: c_stack c) c)))
      by apply (MS []).
    destruct l as [|y l].
    - cbn [member_events flat_map app] in R2. apply replay_one in R2.
      assert (DD : dec_members ((1, KStruct) :: c_stack c) b1 = (stk, b2, None)).
      { rewrite dec_one by lia. cbn [Z.eqb Pos.eqb close_ev]. rewrite R2. exact HD. }
      destruct (D1 _ b0 rest b1 stk b2 A1 R1 DD) as [P1 P2].
      cbn [feed_members flat_map]. rewrite zlen_nil in *.
      destruct (bin_run ver (feed x)) as [o f]. cbn [fst snd] in P1, P2. subst f.
      cbn [bin_run fst snd]. rewrite app_nil_r. split; [reflexivity|].
      rewrite <- app_assoc. rewrite (proj1 (MS _)). exact P2.
    - assert (DD : dec_members ((1 + zlen (y :: l), KStruct) :: c_stack c) b1 =
                   ((zlen (y :: l), KStruct) :: c_stack c, b1, None)).
      { rewrite dec_one by lia. rewrite zlen_cons in *. pose proof (zlen_nonneg _ l).
        destruct (1 + (1 + zlen l) =? 1) eqn:E; [lia|].
        replace (1 + (1 + zlen l) - 1) with (1 + zlen l) by lia. reflexivity. }
      destruct (D1 _ b0 (fst (bin_run ver (feed_members (y :: l))) ++ rest) b1 _ _ A1 R1 DD) as [P1 P2].
      destruct (IH D2 ltac:(discriminate) ltac:(lia) c b1 rest b' stk b2 A R2 HD) as [Q1 Q2].
      destruct (bin_run ver (feed x)) as [o f]. cbn [fst snd] in P1, P2. subst f.
      destruct (bin_run ver (feed_members (y :: l))) as [o' f']. cbn [fst snd] in *. subst f'.
      split; [reflexivity|]. rewrite <- !app_assoc. rewrite (proj1 (MS _)). rewrite P2. exact Q2.
  Qed.

  Theorem decodes_any : forall v, wfu ver v -> decodes v.
  Proof.
    induction v using value_nested_ind; intro W.
    - apply decodes_int. exact W.
    - (* bool *)
      intros c b0 rest b' stk b2 A HR HD. apply replay_one in HR. cbn [feed].
      erewrite bin_one by reflexivity. cbn [fst snd app]. split; [reflexivity|].
      eapply step_tag_scalar; eauto.
      destruct b; vm_compute (data_type _ _); reflexivity.
    - intros c b0 rest b' stk b2 A HR HD. apply replay_one in HR. cbn [feed].
      cbn [wfu wf] in W. unfold has_null in W.
      erewrite bin_one.
      2:{ cbn [bin_pack]. pose proof maj_cases.
          destruct ((v_major ver <? 2) || (v_major ver =? 2) && (v_minor ver <? 1)) eqn:E; [|reflexivity].
          exfalso. apply orb_true_iff in E. rewrite andb_true_iff, Z.eqb_eq, !Z.ltb_lt in E. lia. }
      cbn [fst snd app]. split; [reflexivity|].
      eapply step_tag_scalar; eauto.
      destruct A as (_ & _ & V & _). unfold value_type_arm. cbv zeta. rewrite V.
      change (Z.shiftr (b2z (data_type T_NULL 0)) 3 =? T_BOOL) with false.
      change (Z.shiftr (b2z (data_type T_NULL 0)) 3 =? T_NULL) with true. cbv iota.
      pose proof maj2. destruct (v_major ver =? 1) eqn:E; [lia|]. reflexivity.
    - (* double *)
      intros c b0 rest b' stk b2 A HR HD. apply replay_one in HR. cbn [feed].
      erewrite bin_one by reflexivity. cbn [fst snd app]. split; [reflexivity|].
      rewrite (step_tag_data c b0 _ _ S_DOUBLE 8); auto.
      eapply step_payload; eauto.
      + apply cinv_set; auto. reflexivity.
      + intro s. unfold M_BinUnmarshal.body. cbn [set_state c_state].
        rewrite zlen_app, zlen_le_bytes. pose proof (zlen_nonneg _ s).
        change (Z.of_nat 8) with 8. destruct (8 + zlen s <? 8) eqn:E; [apply Z.ltb_lt in E; exfalso; lia|].
        rewrite ztake_app' by (rewrite zlen_le_bytes; reflexivity).
        rewrite le_val_le_bytes. rewrite Z.mod_small; [reflexivity|].
        cbn [wfu wf] in W. unfold in_u64 in W. change (256 ^ Z.of_nat 8) with (2 ^ 64). exact W.
    - intros c b0 rest b' stk b2 A HR HD. apply replay_one in HR. cbn [feed].
      erewrite bin_one by reflexivity. cbn [fst snd]. split; [reflexivity|].
      eapply decodes_bytes; eauto. left. repeat split.
    - intros c b0 rest b' stk b2 A HR HD. apply replay_one in HR. cbn [feed].
      erewrite bin_one by reflexivity. cbn [fst snd]. split; [reflexivity|].
      eapply decodes_bytes; eauto. left. repeat split.
    - intros c b0 rest b' stk b2 A HR HD. apply replay_one in HR. cbn [feed].
      erewrite bin_one by reflexivity. cbn [fst snd]. split; [reflexivity|].
      eapply decodes_bytes; eauto. right. repeat split.
    - intros c b0 rest b' stk b2 A HR HD. apply replay_one in HR. cbn [feed].
      erewrite bin_one by reflexivity. cbn [fst snd]. split; [reflexivity|].
      cbn [wfu wf] in W. destruct W as [-> W].
      eapply decodes_bytes; eauto. right. repeat split.
    - (* date-time *)
      intros c b0 rest b' stk b2 A HR HD. apply replay_one in HR. cbn [feed]. cbn [wfu wf] in W.
      assert (EC : dt_as_chars d = d).
      { destruct W as (W1 & W2 & W3 & W4 & W5 & W6 & W7 & _). destruct d. unfold dt_as_chars.
        cbn in W1, W2, W3, W4, W5, W6, W7 |- *.
        rewrite !s8_id by (unfold in_s8; lia). reflexivity. }
      rewrite EC.
      destruct (datetime_roundtrip ver d maj_cases W) as (p & EP & Lp & DP).
      erewrite bin_one by (cbn [bin_pack]; rewrite EP; reflexivity). cbn [fst snd app].
      split; [reflexivity|].
      assert (A0 := A). destruct A0 as (_ & _ & V & _).
      rewrite (step_tag_data c b0 _ _ S_DATETIME (if 2 <? v_major ver then 14 else 10)); auto.
      2:{ unfold value_type_arm. cbv zeta. rewrite V. reflexivity. }
      eapply step_payload; eauto.
      + apply cinv_set; auto. unfold wok. cbn [set_state c_state c_ver]. rewrite V. reflexivity.
      + intro s. rewrite body_local.
        * unfold M_BinUnmarshal.body. cbn [set_state c_state c_ver]. rewrite V, DP by reflexivity. reflexivity.
        * apply cinv_set; auto. unfold wok. cbn [set_state c_state c_ver]. rewrite V. reflexivity.
        * lia.
    - (* struct *)
      apply wfu_struct in W. destruct W as (Sm & FW).
      assert (FD : Forall (fun kv => 1 <= blen (fst kv) <= 255 /\ decodes (snd kv)) m).
      { rewrite Forall_forall in *. intros kv HIn. destruct (FW kv HIn) as [K1 K2]. split; auto. }
      intros c b rest b' stk b2 A HR HD. unfold small in Sm.
      rewrite feed_struct. rewrite u32_id by (unfold in_u32; lia).
      cbn [bin_run bin_pack]. cbn [events] in HR. cbn [S_Value.replay] in HR.
      destruct (bstep b (EOpenStruct (zlen m))) as [b1 [f|]] eqn:HB; [discriminate|].
      fold (member_events m) in HR.
      destruct m as [|kv m].
      + cbn [member_events flat_map app] in HR. apply replay_one in HR.
        cbn [feed_members flat_map bin_run fst snd]. split; [reflexivity|]. rewrite app_nil_r.
        exact (open_none KStruct c b rest b1 b' stk b2 A HB HR HD).
      + destruct (decodes_members (kv :: m) FD ltac:(discriminate) ltac:(lia) c b1 rest b' stk b2 A HR HD) as [Q1 Q2].
        destruct (bin_run ver (feed_members (kv :: m))) as [o f]. cbn [fst snd] in *. subst f.
        split; [reflexivity|]. rewrite <- app_assoc.
        assert (OS := open_some KStruct (zlen (kv :: m)) c b (o ++ rest) b1).
        cbn [kind_tag open_ev] in OS. rewrite OS; auto.
        rewrite zlen_cons in *. pose proof (zlen_nonneg _ m). lia.
    - apply wfu_array in W. destruct W as (Sm & FW).
      assert (FD : Forall decodes l).
      { rewrite Forall_forall in *. intros x HIn. apply H; auto. }
      intros c b rest b' stk b2 A HR HD. unfold small in Sm.
      rewrite feed_array. rewrite u32_id by (unfold in_u32; lia).
      cbn [bin_run bin_pack]. cbn [events] in HR. cbn [S_Value.replay] in HR.
      destruct (bstep b (EOpenArray (zlen l))) as [b1 [f|]] eqn:HB; [discriminate|].
      destruct l as [|x l].
      + cbn [flat_map app] in HR. apply replay_one in HR.
        cbn [flat_map bin_run fst snd]. split; [reflexivity|]. rewrite app_nil_r.
        exact (open_none KArray c b rest b1 b' stk b2 A HB HR HD).
      + destruct (decodes_items (x :: l) FD ltac:(discriminate) ltac:(lia) c b1 rest b' stk b2 A HR HD) as [Q1 Q2].
        destruct (bin_run ver (flat_map feed (x :: l))) as [o f]. cbn [fst snd] in *. subst f.
        split; [reflexivity|]. rewrite <- app_assoc.
        assert (OS := open_some KArray (zlen (x :: l)) c b (o ++ rest) b1).
        cbn [kind_tag open_ev] in OS. rewrite OS; auto.
        rewrite zlen_cons in *. pose proof (zlen_nonneg _ l). lia.
    - exact (IHv W).
  Qed.
  Theorem decodes_all : forall v, wf ver v -> decodes v.
  Proof. intros v W. apply decodes_any, wf_wfu, W. Qed.
End Decode.
