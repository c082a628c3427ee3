(** The builder calls of the binary unmarshaller are well nested. *)
From Coq Require Import Lia.
From Verif Require Import Base Value M_Marshal M_BinUnmarshal S_Events L_Base L_BinUnmarshal L_BinSafety.

Lemma nest_run_app : forall a b s,
  nest_run s (a ++ b) = match nest_run s a with Some s' => nest_run s' b | None => None end.
Proof.
  induction a as [|e a IH]; intros b s; simpl; auto. destruct (nest_step s e); auto.
Qed.

Lemma nest_snoc : forall t e s, nest_run NStart t = Some s ->
  nest_run NStart (t ++ [e]) = nest_step s e.
Proof. intros t e s H. rewrite nest_run_app, H. simpl. destruct (nest_step s e); auto. Qed.

Lemma well_nested_prefix : forall a b, well_nested (a ++ b) -> well_nested a.
Proof.
  unfold well_nested. intros a b H E. rewrite nest_run_app, E in H. congruence.
Qed.

Definition lowered (stk : list (Z * kind)) : list open_container :=
  map (fun e => (fst e - 1, snd e, false)) stk.

(** A member name was read but its value not yet. *)
Definition pending (c : core) : bool :=
  match c_stack c with
  | (_, KStruct) :: _ => negb (dstate_eqb (c_state c) S_VALUE_TYPE || dstate_eqb (c_state c) S_MEMBER_NAME)
  | _ => false
  end.

Definition opened (c : core) : list open_container :=
  match c_stack c with
  | [] => []
  | (n, k) :: r => (n, k, pending c) :: lowered r
  end.

Definition head_rel (c : core) (s : nstate) : Prop :=
  if head_state (c_state c) then s = NStart
  else if c_fault c =? 0 then s = NBody (opened c) /\ (c_state c = S_MEMBER_NAME -> in_struct c = true)
  else s = (if c_fault c =? 3 then NEnd else NStart) /\ c_state c <> S_MEMBER_NAME.

(** After a complete value, before decrementMember. *)
Definition mid_rel (c : core) (s : nstate) : Prop :=
  c_state c = S_VALUE_TYPE /\
  if c_fault c =? 0 then s = NBody (lowered (c_stack c))
  else s = (if c_fault c =? 3 then NEnd else NStart).

Definition trel (R : nstate -> Prop) (t : list event) : Prop :=
  exists s, nest_run NStart t = Some s /\ R s.

Section Nest.
  Variable B : Type.
  Variable bstep0 : B -> event -> B * option fail.
  Variable req : Z.
  Notation bstep := (traced bstep0).
  Notation T := (B * list event)%type.

  Notation body := (body T bstep req).
  Notation emit := (emit T bstep).
  Notation scalar := (scalar T bstep).
  Notation decrement := (decrement T bstep).
  Notation dec_members := (dec_members T bstep).
  Notation lbig := (lbig T bstep req).
  Notation unmarshall := (unmarshall T bstep req).

  Lemma traced_snd : forall b e b' f, bstep b e = (b', f) -> snd b' = snd b ++ [e].
  Proof.
    intros [b t] e b' f. unfold traced. simpl. destruct (bstep0 b e) as [b1 f1].
    intro H; inversion H; reflexivity.
  Qed.

  Lemma take_item_opened : forall c, 
    Forall (fun e => 1 <= fst e < element_size_limit) (c_stack c) ->
    (in_struct c = true -> pending c = true) ->
    take_item (opened c) = Some (lowered (c_stack c)).
  Proof.
    intros c F P. unfold opened, in_struct in *. destruct (c_stack c) as [|[n k] r] eqn:E; auto.
    inversion F as [|? ? F1 F2]; subst. cbn [fst] in F1. simpl take_item.
    destruct k.
    - rewrite P by auto. destruct (0 <? n) eqn:X; [reflexivity|lia].
    - destruct (0 <? n) eqn:X; [reflexivity|lia].
  Qed.

  Definition is_value (e : event) : bool :=
    match e with
    | EInt _ | EBool _ | ENull | EDouble _ | EString _ | EBinary _ | EDateTime _ => true
    | _ => false
    end.

  (** Reporting a scalar. *)
  Lemma scalar_nest : forall c b e,
    is_value e = true -> cinv0 c -> head_state (c_state c) = false ->
    (c_fault c = 0 -> in_struct c = true -> pending c = true) ->
    trel (head_rel c) (snd b) ->
    match scalar c b e with
    | Next _ c' b' _ _ => trel (mid_rel c') (snd b')
    | Stop _ => True
    | Bad _ _ b' _ => well_nested (snd b')
    end.
  Proof.
    intros c b e V (F & FR & FS) HS P (s & HR & R).
    unfold head_rel in R. rewrite HS in R.
    unfold M_BinUnmarshal.scalar, M_BinUnmarshal.emit.
    destruct (c_fault c =? 0) eqn:E0.
    - apply Z.eqb_eq in E0. destruct R as [R _]. subst s.
      assert (NS : nest_step (NBody (opened c)) e = Some (NBody (lowered (c_stack c)))).
      { pose proof (take_item_opened c F (P E0)) as TI. 
        destruct e; try discriminate V; cbn [nest_step]; rewrite TI; reflexivity. }
      destruct (bstep b e) as [b' f] eqn:EB. apply traced_snd in EB.
      assert (NR : nest_run NStart (snd b') = Some (NBody (lowered (c_stack c)))).
      { rewrite EB. erewrite nest_snoc by exact HR. exact NS. }
      destruct f.
      + unfold well_nested. congruence.
      + eexists. split; [exact NR|]. split; [reflexivity|]. cbn [set_state c_fault c_stack]. rewrite E0. reflexivity.
    - destruct R as [R _].
      assert (WN : well_nested (snd b)) by (unfold well_nested; congruence).
      destruct e; try discriminate V; cbn [fault_step]; try exact WN.
      + destruct (c_fault c =? 1) eqn:E1; [|exact WN].
        apply Z.eqb_eq in E1. exists s. split; auto. split; [reflexivity|].
        cbn [set_state set_fault c_fault]. rewrite R, E1. reflexivity.
      + destruct (c_fault c =? 2) eqn:E2; [|exact WN]. apply Z.eqb_eq in E2.
        rewrite E2 in R. simpl in R. subst s.
        destruct (bstep b (EFault (s32 (c_errno c)) s0)) as [b' f] eqn:EB. apply traced_snd in EB.
        assert (NR : nest_run NStart (snd b') = Some NEnd).
        { rewrite EB. erewrite nest_snoc by exact HR. reflexivity. }
        destruct f; [unfold well_nested; congruence|].
        eexists. split; [exact NR|]. split; reflexivity.
  Qed.

  Lemma container_nest : forall k c b d,
    cinv0 c -> head_state (c_state c) = false ->
    (c_fault c = 0 -> in_struct c = true -> pending c = true) ->
    trel (head_rel c) (snd b) ->
    match container_arm T bstep k c b d with
    | Next _ c' b' _ true => trel (mid_rel c') (snd b')
    | Next _ c' b' _ false => trel (head_rel c') (snd b')
    | Stop _ => True
    | Bad _ _ b' _ => well_nested (snd b')
    end.
  Proof.
    intros k c b d (F & FR & FS) HS P (s & HR & R).
    assert (WN : well_nested (snd b)) by (unfold well_nested; congruence).
    unfold container_arm. cbv zeta.
    destruct (get_int64 d <? 0) eqn:A1; [exact WN|].
    destruct (negb _); [exact WN|].
    destruct (element_size_limit <=? get_int64 d); [exact WN|].
    set (n := get_int64 d) in *.
    unfold head_rel in R. rewrite HS in R.
    destruct (c_fault c =? 0) eqn:E0.
    2:{ unfold M_BinUnmarshal.emit. rewrite E0. destruct k; exact WN. }
    apply Z.eqb_eq in E0. destruct R as [R _]. subst s.
    pose proof (take_item_opened c F (P E0)) as TI.
    unfold M_BinUnmarshal.emit. rewrite E0. cbn [Z.eqb].
    destruct (bstep b _) as [b' f] eqn:EB. apply traced_snd in EB.
    assert (NR : nest_run NStart (snd b') = Some (NBody ((n, k, false) :: lowered (c_stack c)))).
    { rewrite EB. erewrite nest_snoc by exact HR. destruct k; cbn [nest_step]; rewrite TI; reflexivity. }
    destruct f; [unfold well_nested; congruence|].
    destruct (negb (n =? 0)) eqn:EN.
    - eexists. split; [exact NR|]. unfold head_rel. cbn [set_state set_stack c_state head_state c_fault].
      rewrite E0. simpl. split; [|discriminate]. unfold opened, pending. simpl.
      destruct k; reflexivity.
    - apply negb_false_iff, Z.eqb_eq in EN. rewrite E0. cbn [Z.eqb].
      destruct (bstep b' _) as [b2 f2] eqn:EB2. apply traced_snd in EB2.
      assert (NR2 : nest_run NStart (snd b2) = Some (NBody (lowered (c_stack c)))).
      { rewrite EB2. erewrite nest_snoc by exact NR. destruct k; simpl; rewrite EN; reflexivity. }
      destruct f2; [unfold well_nested; congruence|].
      eexists. split; [exact NR2|]. split; [reflexivity|]. cbn [set_state c_fault c_stack]. rewrite E0. reflexivity.
  Qed.

  (** Result of a body. *)
  Definition body_rel (r : bres T) : Prop :=
    match r with
    | Next _ c' b' _ true => trel (mid_rel c') (snd b')
    | Next _ c' b' _ false => trel (head_rel c') (snd b')
    | Stop _ => True
    | Bad _ _ b' _ => well_nested (snd b')
    end.

  Lemma scalar_body_rel : forall c b e,
    is_value e = true -> cinv0 c -> head_state (c_state c) = false ->
    (c_fault c = 0 -> in_struct c = true -> pending c = true) ->
    trel (head_rel c) (snd b) -> body_rel (scalar c b e).
  Proof.
    intros c b e V I HS P R. pose proof (scalar_nest c b e V I HS P R) as N.
    unfold body_rel. destruct (scalar c b e) as [c' b' w fin| |] eqn:E; auto.
    apply scalar_next in E; auto. destruct E as (_ & _ & _ & -> & _). exact N.
  Qed.

  Lemma head_rel_state : forall c st s, head_rel c s ->
    head_state (c_state c) = false -> head_state st = false -> st <> S_MEMBER_NAME ->
    (c_fault c = 0 -> pending (set_state st c) = pending c) -> head_rel (set_state st c) s.
  Proof.
    intros c st s R H1 H2 H3 P. unfold head_rel in *. cbn [set_state c_state c_fault]. rewrite H1 in R. rewrite H2.
    destruct (c_fault c =? 0) eqn:E.
    - apply Z.eqb_eq in E. destruct R as [R _]. split; [|congruence]. rewrite R. unfold opened.
      rewrite P by auto. reflexivity.
    - destruct R as [R _]. auto.
  Qed.

  Lemma value_type_nest : forall known c b t,
    cinv0 c -> head_state (c_state c) = false ->
    (c_fault c = 0 -> in_struct c = true -> pending c = true) ->
    trel (head_rel c) (snd b) -> body_rel (value_type_arm T bstep known c b t).
  Proof.
    intros known c b t I HS P R.
    assert (WN : well_nested (snd b)) by (destruct R as (s & HR & _); unfold well_nested; congruence).
    assert (NX : forall st n, head_state st = false -> st <> S_MEMBER_NAME -> st <> S_VALUE_TYPE ->
       body_rel (Next T (set_state st c) b n false)).
    { intros st n H1 H2 H3. destruct R as (s & HR & R). exists s. split; auto.
      apply head_rel_state; auto.
      intro E0. specialize (P E0). unfold pending, in_struct in *. cbn [set_state c_stack c_state].
      destruct (c_stack c) as [|[n0 k0] r]; auto. destruct k0; auto. rewrite P by auto.
      destruct st; try reflexivity; congruence. }
    unfold value_type_arm. cbv zeta.
    repeat match goal with
    | |- body_rel (if ?x then _ else _) => destruct x
    | |- body_rel match ?x with Some _ => _ | None => _ end => destruct x
    end; try exact WN; try exact Logic.I; try (apply scalar_body_rel; auto; fail);
    apply NX; try reflexivity; discriminate.
  Qed.

  Lemma body_nest : forall known c b w s,
    cinv c w -> trel (head_rel c) (snd b) -> w <= zlen s -> body_rel (body known c b w s).
  Proof.
    intros known c b w d (W & I & Hd) R L.
    assert (WN : well_nested (snd b)) by (destruct R as (s & HR & _); unfold well_nested; congruence).
    unfold M_BinUnmarshal.body. cbv zeta. unfold wok in W. unfold hd_ok in Hd.
    destruct (c_state c) eqn:ES;
      repeat match goal with
      | |- body_rel (if (zlen _ <? _) then _ else _) => destruct (zlen d <? _); [exact WN|]
      | |- body_rel (if (zlen _ <? _) || _ then _ else _) => destruct ((zlen d <? w) || (8 <? w)); [exact WN|]
      end.
    1-4: specialize (Hd eq_refl); destruct Hd as [HK HF].
    - (* magic *)
      destruct d as [|m0 [|m1 [|v0 [|v1 d]]]]; try exact WN.
      destruct (negb _); [exact WN|]. destruct (_ || _); [exact WN|].
      destruct R as (s & HR & R). exists s. split; auto. unfold head_rel in *. rewrite ES in R. exact R.
    - (* body *)
      destruct d as [|t d]; [exact WN|].
      destruct (negb _); [exact WN|].
      destruct R as (s & HR & R). unfold head_rel in R. rewrite ES in R. simpl in R. subst s.
      destruct (_ =? T_FAULT).
      + exists NStart. split; auto. unfold head_rel. simpl. split; auto. discriminate.
      + destruct (_ =? T_METHOD_RESPONSE).
        * unfold M_BinUnmarshal.emit. rewrite HF. cbn [Z.eqb].
          destruct (bstep b EMethodResponse) as [b' f] eqn:EB. apply traced_snd in EB.
          assert (NR : nest_run NStart (snd b') = Some (NBody [])).
          { rewrite EB. erewrite nest_snoc by exact HR. reflexivity. }
          destruct f; [unfold body_rel, well_nested; congruence|].
          eexists. split; [exact NR|]. unfold head_rel, opened. simpl. rewrite HF, HK. split; [reflexivity|discriminate].
        * destruct (_ =? T_METHOD_CALL); [|exact WN].
          exists NStart. split; [auto|reflexivity].
    - destruct d as [|t d]; [exact WN|]. destruct (b2z t =? 0); [exact WN|].
      destruct R as (s & HR & R). exists s. split; auto. unfold head_rel in *. rewrite ES in R. exact R.
    - (* method name *)
      destruct R as (s & HR & R). unfold head_rel in R. rewrite ES in R. simpl in R. subst s.
      unfold M_BinUnmarshal.emit. rewrite HF. cbn [Z.eqb].
      destruct (bstep b _) as [b' f] eqn:EB. apply traced_snd in EB.
      assert (NR : nest_run NStart (snd b') = Some (NBody [])).
      { rewrite EB. erewrite nest_snoc by exact HR. reflexivity. }
      destruct f; [unfold body_rel, well_nested; congruence|].
      eexists. split; [exact NR|]. unfold head_rel, opened. simpl. rewrite HF, HK. split; [reflexivity|discriminate].
    - (* member name *)
      destruct R as (s & HR & R). unfold head_rel in R. rewrite ES in R. cbn [head_state] in R.
      destruct (c_fault c =? 0) eqn:E0; [|destruct R as [_ R]; congruence].
      destruct R as [R IS]. specialize (IS eq_refl). subst s.
      unfold M_BinUnmarshal.emit. rewrite E0.
      destruct (bstep b _) as [b' f] eqn:EB. apply traced_snd in EB.
      unfold in_struct in IS. destruct (c_stack c) as [|[n k] r] eqn:EK; [discriminate|].
      destruct k; [|discriminate].
      destruct I as (F & _ & _). rewrite EK in F. inversion F as [|? ? F1 F2]; subst. cbn [fst] in F1.
      assert (NR : nest_run NStart (snd b') = Some (NBody ((n, KStruct, true) :: lowered r))).
      { rewrite EB. erewrite nest_snoc by exact HR. unfold opened, pending. rewrite EK, ES.
        cbn [dstate_eqb orb negb nest_step name_item].
        assert (ZK : blen (ztake w d) = w) by (apply zlen_ztake; lia). rewrite ZK.
        destruct (0 <? n) eqn:X; [|lia]. destruct (0 <? w) eqn:Y; [|lia]. reflexivity. }
      destruct f; [unfold body_rel, well_nested; congruence|].
      eexists. split; [exact NR|]. unfold head_rel. cbn [set_state c_state head_state c_fault]. rewrite E0.
      split; [|discriminate]. unfold opened, pending. cbn [set_state c_stack c_state]. rewrite EK. reflexivity.
    - (* value type *)
      destruct d as [|t d]; [exact WN|].
      destruct (in_struct c) eqn:EI.
      + destruct (b2z t =? 0); [exact WN|].
        destruct R as (s & HR & R). exists s. split; auto. unfold head_rel in *. rewrite ES in R.
        cbn [set_state c_state head_state c_fault] in *.
        destruct (c_fault c =? 0) eqn:E0.
        * destruct R as [R _]. split; [|intro; exact EI]. rewrite R. unfold opened, pending. cbn [set_state c_stack c_state].
          rewrite ES. reflexivity.
        * exfalso. destruct I as (_ & _ & FS). unfold in_struct in EI. rewrite FS in EI by lia. discriminate.
      + apply value_type_nest; auto; [rewrite ES; reflexivity | congruence].
    - destruct d as [|t d]; [exact WN|].
      apply value_type_nest; auto; [rewrite ES; reflexivity|].
      intros _. unfold in_struct, pending. rewrite ES. destruct (c_stack c) as [|[n k] r]; [discriminate|].
      destruct k; auto.
    - unfold length_arm. cbv zeta. destruct (_ <=? _); [exact WN|].
      destruct R as (s & HR & R). exists s. split; auto. apply head_rel_state; auto; try (rewrite ES; reflexivity); try discriminate.
      intros _. unfold pending. cbn [set_state c_stack c_state]. rewrite ES. reflexivity.
    - apply scalar_body_rel; auto; [rewrite ES; reflexivity|].
      intros _. unfold in_struct, pending. rewrite ES. destruct (c_stack c) as [|[n k] r]; [discriminate|]. destruct k; auto.
    - unfold length_arm. cbv zeta. destruct (_ <=? _); [exact WN|].
      destruct R as (s & HR & R). exists s. split; auto. apply head_rel_state; auto; try (rewrite ES; reflexivity); try discriminate.
      intros _. unfold pending. cbn [set_state c_stack c_state]. rewrite ES. reflexivity.
    - apply scalar_body_rel; auto; [rewrite ES; reflexivity|].
      intros _. unfold in_struct, pending. rewrite ES. destruct (c_stack c) as [|[n k] r]; [discriminate|]. destruct k; auto.
    - apply scalar_body_rel; auto; [rewrite ES; reflexivity|].
      intros _. unfold in_struct, pending. rewrite ES. destruct (c_stack c) as [|[n k] r]; [discriminate|]. destruct k; auto.
    - apply scalar_body_rel; auto; [rewrite ES; reflexivity|].
      intros _. unfold in_struct, pending. rewrite ES. destruct (c_stack c) as [|[n k] r]; [discriminate|]. destruct k; auto.
    - apply scalar_body_rel; auto; [rewrite ES; reflexivity|].
      intros _. unfold in_struct, pending. rewrite ES. destruct (c_stack c) as [|[n k] r]; [discriminate|]. destruct k; auto.
    - apply scalar_body_rel; auto; [rewrite ES; reflexivity|].
      intros _. unfold in_struct, pending. rewrite ES. destruct (c_stack c) as [|[n k] r]; [discriminate|]. destruct k; auto.
    - destruct (decode_datetime (c_ver c) d); [|exact WN].
      apply scalar_body_rel; auto; [rewrite ES; reflexivity|].
      intros _. unfold in_struct, pending. rewrite ES. destruct (c_stack c) as [|[n k] r]; [discriminate|]. destruct k; auto.
    - apply container_nest; auto; [rewrite ES; reflexivity|].
      intros _. unfold in_struct, pending. rewrite ES. destruct (c_stack c) as [|[n k] r]; [discriminate|]. destruct k; auto.
    - apply container_nest; auto; [rewrite ES; reflexivity|].
      intros _. unfold in_struct, pending. rewrite ES. destruct (c_stack c) as [|[n k] r]; [discriminate|]. destruct k; auto.
  Qed.

  Lemma dec_members_nest : forall stk b,
    Forall (fun e => 1 <= fst e < element_size_limit) stk ->
    nest_run NStart (snd b) = Some (NBody (lowered stk)) ->
    match dec_members stk b with
    | (_, b', Some _) => well_nested (snd b')
    | (stk', b', None) =>
        nest_run NStart (snd b') = Some (NBody (match stk' with
          | [] => [] | (n, k) :: r => (n, k, false) :: lowered r end))
    end.
  Proof.
    induction stk as [|[n k] r IH]; intros b F NR; cbn [M_BinUnmarshal.dec_members]; [exact NR|].
    inversion F as [|? ? F1 F2]; subst. cbn [fst] in F1. cbv zeta.
    assert (EN : u32 (n - 1) = n - 1) by (apply u32_id; unfold in_u32, element_size_limit in *; lia).
    rewrite EN. destruct (negb (n - 1 =? 0)) eqn:E; [exact NR|].
    apply negb_false_iff, Z.eqb_eq in E.
    destruct (bstep b _) as [b' f] eqn:EB. apply traced_snd in EB.
    assert (NR' : nest_run NStart (snd b') = Some (NBody (lowered r))).
    { rewrite EB. erewrite nest_snoc by exact NR. destruct k; simpl; rewrite E; reflexivity. }
    destruct f; [unfold well_nested; congruence|]. apply IH; auto.
  Qed.

  Lemma lbig_nest : forall known c w b s c' w' b' r e,
    cinv c w -> trel (head_rel c) (snd b) -> lbig known c w b s = (c', w', b', r, e) ->
    well_nested (snd b') /\ (e = Finished -> trel (head_rel c') (snd b')).
  Proof.
    intros known c w b s c' w' b' r e I R H. revert R c' w' b' r e H.
    apply (lbig_ind T bstep req known (fun c w b s res => trel (head_rel c) (snd b) ->
      forall c' w' b' r e, res = (c', w', b', r, e) ->
      well_nested (snd b') /\ (e = Finished -> trel (head_rel c') (snd b')))); auto; clear c w b s I.
    - intros c w b s I L R c' w' b' r e E. inversion E; subst. split; auto.
      destruct R as (x & HR & _). unfold well_nested. congruence.
    - intros c w b s I L HB R c' w' b' r e E. inversion E; subst. split; [|discriminate].
      destruct R as (x & HR & _). unfold well_nested. congruence.
    - intros c w b s c1 b1 f I L HB R c' w' b' r e E. inversion E; subst. split; [|discriminate].
      pose proof (body_nest known c b w' r I R L) as BN. rewrite HB in BN. exact BN.
    - intros c w b s c1 b1 w1 fin c2 b2 f I L HB I1 HD R c' w' b' r e E. inversion E; subst.
      split; [|discriminate].
      pose proof (body_nest known c b w' r I R L) as BN. rewrite HB in BN. 
      unfold M_BinUnmarshal.decrement in HD. destruct fin; [|discriminate].
      cbn [body_rel] in BN. destruct BN as (x & HR & M). destruct M as [MS M].
      destruct I1 as (_ & (F & _ & FS) & _).
      destruct (c_fault c1 =? 0) eqn:E0.
      + subst x. pose proof (dec_members_nest (c_stack c1) b1 F HR) as DN.
        destruct (dec_members (c_stack c1) b1) as [[s2 b3] g]. inversion HD; subst. exact DN.
      + rewrite FS in HD by lia. simpl in HD. discriminate.
    - intros c w b s c1 b1 w1 fin c2 b2 r0 I L HB HD I1 I2 _ IH R c' w' b' r e E.
      refine (IH _ _ _ _ _ _ E). clear IH E.
      pose proof (body_nest known c b w s I R L) as BN. rewrite HB in BN.
      unfold M_BinUnmarshal.decrement in HD. destruct fin; [|inversion HD; subst; exact BN].
      cbn [body_rel] in BN. destruct BN as (x & HR & M). destruct M as [MS M].
      destruct I1 as (_ & (F & _ & FS) & _).
      destruct (c_fault c1 =? 0) eqn:E0.
      + subst x. pose proof (dec_members_nest (c_stack c1) b1 F HR) as DN.
        destruct (dec_members (c_stack c1) b1) as [[s2 b3] g]. inversion HD; subst.
        eexists. split; [exact DN|]. unfold head_rel. cbn [set_stack c_state c_fault]. rewrite MS, E0.
        cbn [head_state]. split; [|discriminate]. unfold opened, pending. cbn [set_stack c_stack c_state]. rewrite MS.
        destruct s2 as [|[n k] r2]; auto. destruct k; reflexivity.
      + rewrite FS in HD by lia. simpl in HD. inversion HD; subst.
        eexists. split; [exact HR|]. unfold head_rel. cbn [set_stack c_state c_fault]. rewrite MS, E0.
        cbn [head_state]. split; [reflexivity|congruence].
  Qed.

  (** Whole sequences of calls. *)
  Definition nready (u : unm) (b : T) : Prop := ready u /\ trel (head_rel (u_core u)) (snd b).

  Lemma nready_init : forall b, nready unm_init (b, []).
  Proof. intro b. split; [exact ready_init|]. exists NStart. split; reflexivity. Qed.

  Lemma unmarshall_nest : forall u b data u' b' f, nready u b ->
    unmarshall u b data = (u', b', f) -> well_nested (snd b') /\ (f = None -> nready u' b').
  Proof.
    intros u b data u' b' f [R N] H.
    pose proof (unmarshall_ready T bstep req u b data) as UR.
    pose proof H as H0. rewrite unmarshall_lbig in H by auto.
    pose proof (lbig_not_stopped T bstep req (u_core u) (u_wanted u) b (u_buffer u ++ data) (proj1 R)) as NS.
    pose proof (lbig_not_out T bstep req false (u_core u) (u_wanted u) b (u_buffer u ++ data) (proj1 R)) as NO.
    destruct (lbig false _ _ _ _) as [[[[c w] b1] r] e] eqn:E. inversion H; subst.
    destruct (lbig_nest _ _ _ _ _ _ _ _ _ _ (proj1 R) N E) as [WN TR].
    split; auto. intro EF. split; [eapply UR; [exact R|rewrite H0, EF; reflexivity]|].
    apply TR. simpl in *. destruct e; simpl in *; congruence.
  Qed.

  Lemma unmarshall_all_nest : forall pieces u b u' b' f, nready u b ->
    unmarshall_all T bstep req u b pieces = (u', b', f) ->
    well_nested (snd b') /\ (f = None -> nready u' b').
  Proof.
    induction pieces as [|p ps IH]; intros u b u' b' f N H; cbn [unmarshall_all] in H.
    - inversion H; subst. split; [|auto]. destruct N as [_ (s & HR & _)]. unfold well_nested. congruence.
    - destruct (unmarshall u b p) as [[u1 b1] [g|]] eqn:E.
      + inversion H; subst. destruct (unmarshall_nest _ _ _ _ _ _ N E) as [E1 _]. split; [exact E1|discriminate].
      + destruct (unmarshall_nest _ _ _ _ _ _ N E) as [_ E1]. exact (IH _ _ _ _ _ (E1 eq_refl) H).
  Qed.
End Nest.
