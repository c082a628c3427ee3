(** Lemmas about the driver loop of the binary unmarshaller: invariants, fuel, buffering. *)
From Coq Require Import Lia.
From Verif Require Import Base Value M_Marshal M_BinUnmarshal L_Base.

(** What the unmarshaller waits for in each state. *)
Definition wok (c : core) (w : Z) : Prop :=
  match c_state c with
  | S_MAGIC => w = 4
  | S_BODY | S_METHOD_NAME_LEN | S_VALUE_TYPE | S_REAL_VALUE_TYPE => w = 1
  | S_METHOD_NAME | S_MEMBER_NAME => 1 <= w < 256
  | S_STRING_LEN | S_BINARY_LEN | S_INT | S_INTN8 | S_INTP8 | S_STRUCT | S_ARRAY => 1 <= w <= 8
  | S_STRING | S_BINARY => 0 <= w < element_size_limit
  | S_DOUBLE => w = 8
  | S_DATETIME => w = if 2 <? v_major (c_ver c) then 14 else 10
  end.

(** States before the body of the message. *)
Definition head_state (s : dstate) : bool :=
  match s with S_MAGIC | S_BODY | S_METHOD_NAME_LEN | S_METHOD_NAME => true | _ => false end.

Definition cinv0 (c : core) : Prop :=
  Forall (fun e => 1 <= fst e < element_size_limit) (c_stack c)
  /\ 0 <= c_fault c <= 3 /\ (c_fault c <> 0 -> c_stack c = []).

Definition hd_ok (c : core) : Prop :=
  head_state (c_state c) = true -> c_stack c = [] /\ c_fault c = 0.

Definition cinv (c : core) (w : Z) : Prop := wok c w /\ cinv0 c /\ hd_ok c.

Lemma cinv_init : cinv (u_core unm_init) (u_wanted unm_init).
Proof.
  unfold cinv, cinv0, hd_ok, wok; simpl. repeat split; try lia; auto.
Qed.

Lemma cinv_nonneg : forall c w, cinv c w -> 0 <= w.
Proof.
  intros c w [H _]. unfold wok in H.
  destruct (c_state c); try lia. destruct (2 <? v_major (c_ver c)); lia.
Qed.

Lemma cinv_zero : forall c w, cinv c w -> w = 0 -> c_state c = S_STRING \/ c_state c = S_BINARY.
Proof.
  intros c w [H _] ->. unfold wok in H.
  destruct (c_state c); auto; try lia. destruct (2 <? v_major (c_ver c)); lia.
Qed.

Lemma land7 : forall z, Z.land z 7 = z mod 8.
Proof. intro. exact (land_ones_mod z 3 ltac:(lia)). Qed.

Lemma versioned_length_range : forall l z n, versioned_length_size l z = Some n -> 1 <= n <= 8.
Proof.
  intros l z n. unfold versioned_length_size. rewrite land7.
  assert (0 <= z mod 8 < 8) by (apply Z.mod_pos_bound; lia).
  destruct l.
  - intro E; inversion E; lia.
  - destruct ((z mod 8 =? 0) || (4 <? z mod 8)) eqn:E; [discriminate|].
    intro E'; inversion E'; subst. apply orb_false_iff in E. destruct E as [E _].
    apply Z.eqb_neq in E. lia.
Qed.

Section Driver.
  Variable B : Type.
  Variable bstep : B -> event -> B * option fail.
  Variable req : Z.

  Notation body := (body B bstep req).
  Notation run f := (run B bstep f req).
  Notation emit := (emit B bstep).
  Notation scalar := (scalar B bstep).
  Notation decrement := (decrement B bstep).
  Notation dec_members := (dec_members B bstep).

  (** The core after an accepted report: only errNo / faultState may change. *)
  Definition same_but_fault (c c' : core) : Prop :=
    c_state c' = c_state c /\ c_stack c' = c_stack c /\ c_ver c' = c_ver c
    /\ (c_fault c = 0 -> c_fault c' = 0) /\ (c_fault c <> 0 -> c_fault c' <> 0)
    /\ (0 <= c_fault c <= 3 -> 0 <= c_fault c' <= 3).

  Lemma emit_same : forall c b e c' b' f, emit c b e = (c', b', f) -> same_but_fault c c'.
  Proof.
    intros c b e c' b' f. unfold M_BinUnmarshal.emit.
    destruct (c_fault c =? 0) eqn:E0.
    - apply Z.eqb_eq in E0. destruct (bstep b e) as [b1 f1]. intro E; inversion E; subst.
      unfold same_but_fault; repeat split; auto; lia.
    - apply Z.eqb_neq in E0.
      destruct e; simpl;
        try (intro E; inversion E; subst; unfold same_but_fault; repeat split; auto; lia).
      + destruct (c_fault c =? 1) eqn:E1; intro E; inversion E; subst;
          unfold same_but_fault; simpl; repeat split; auto; lia.
      + destruct (c_fault c =? 2) eqn:E1.
        * destruct (bstep b (EFault (s32 (c_errno c)) s)) as [b1 [f1|]];
            intro E; inversion E; subst; unfold same_but_fault; simpl; repeat split; auto; lia.
        * intro E; inversion E; subst; unfold same_but_fault; repeat split; auto; lia.
  Qed.

  Lemma cinv0_same : forall c c', same_but_fault c c' -> cinv0 c -> cinv0 c'.
  Proof.
    intros c c' (Hs & Hk & Hv & H0 & H1 & H2) (I1 & I2 & I3).
    unfold cinv0. rewrite Hk. split; [exact I1|]. split; [apply H2; lia|].
    intro H. apply I3. intro. apply H. auto.
  Qed.

  Lemma cinv0_state : forall s c, cinv0 c -> cinv0 (set_state s c).
  Proof. intros s c H. exact H. Qed.

  Lemma scalar_next : forall c b e c' b' w fin,
    scalar c b e = Next B c' b' w fin ->
    cinv0 c -> cinv0 c' /\ c_state c' = S_VALUE_TYPE /\ w = 1 /\ fin = true /\ c_ver c' = c_ver c
               /\ c_stack c' = c_stack c.
  Proof.
    intros c b e c' b' w fin. unfold M_BinUnmarshal.scalar.
    destruct (emit c b e) as [[c1 b1] f1] eqn:E. apply emit_same in E.
    destruct f1; intro H; inversion H; subst. intro I.
    pose proof (cinv0_same _ _ E I). destruct E as (Hs & Hk & Hv & _).
    repeat split; auto; try (apply H0).
  Qed.

  Definition arm_ok (c c' : core) (w : Z) (fin : bool) : Prop :=
    cinv0 c' /\ wok c' w /\ head_state (c_state c') = false
    /\ (fin = true -> c_state c' = S_VALUE_TYPE).

  Lemma value_type_arm_next : forall known c b t c' b' w fin,
    value_type_arm B bstep known c b t = Next B c' b' w fin -> cinv0 c -> arm_ok c c' w fin.
  Proof.
    intros known c b t c' b' w fin H I. unfold value_type_arm in H. cbv zeta in H.
    assert (L : forall longer st, 
      match versioned_length_size longer (b2z t) with
      | Some n => Next B (set_state st c) b n false
      | None => throw B c b "Illegal element length"
      end = Next B c' b' w fin ->
      (forall n, 1 <= n <= 8 -> wok (set_state st c) n) -> head_state st = false ->
      arm_ok c c' w fin).
    { intros longer st. destruct (versioned_length_size longer (b2z t)) eqn:E; [|discriminate].
      intros E' HW HS. inversion E'; subst. apply versioned_length_range in E.
      split; [apply cinv0_state; auto|]. split; auto. split; [exact HS|discriminate]. }
    assert (LN : 1 <= Z.land (b2z t) 7 + 1 <= 8).
    { rewrite land7. pose proof (Z.mod_pos_bound (b2z t) 8). lia. }
    assert (SC : forall e, scalar c b e = Next B c' b' w fin -> arm_ok c c' w fin).
    { intros e E. apply scalar_next in E; auto. destruct E as (E1 & E2 & E3 & _ & E4 & _).
      split; [exact E1|]. unfold wok. rewrite E2. auto. }
    repeat match type of H with
    | (if ?x then _ else _) = _ => destruct x
    end; try discriminate; try (apply (SC _ H));
    try (eapply L; [exact H| |reflexivity]; intros; unfold wok; simpl; lia);
    (inversion H; subst; split; [apply cinv0_state; exact I|]; split; [|split; [reflexivity|discriminate]];
         unfold wok; simpl; auto).
  Qed.

  Lemma container_arm_next : forall k c b d c' b' w fin,
    container_arm B bstep k c b d = Next B c' b' w fin ->
    cinv0 c -> cinv0 c' /\ c_state c' = S_VALUE_TYPE /\ w = 1.
  Proof.
    intros k c b d c' b' w fin H I. unfold container_arm in H. cbv zeta in H.
    destruct (get_int64 d <? 0) eqn:E1; [discriminate|]. apply Z.ltb_ge in E1.
    destruct (negb (Z.shiftr (get_int64 d) 32 =? 0)); [discriminate|].
    destruct (element_size_limit <=? get_int64 d) eqn:E2; [discriminate|]. apply Z.leb_gt in E2.
    destruct (emit c b _) as [[c1 b1] f1] eqn:E3.
    assert (F : f1 = None -> c_fault c = 0).
    { intros ->. unfold M_BinUnmarshal.emit in E3. destruct (c_fault c =? 0) eqn:E0; [lia|].
      destruct k; simpl in E3; inversion E3. }
    pose proof (emit_same _ _ _ _ _ _ E3) as E3'.
    destruct f1; [discriminate|]. specialize (F eq_refl).
    pose proof (cinv0_same _ _ E3' I) as I1.
    destruct (negb (get_int64 d =? 0)) eqn:E4.
    - inversion H; subst. split; [|auto]. apply cinv0_state. destruct I1 as (J1 & J2 & J3).
      unfold cinv0. simpl. repeat split; try lia.
      + constructor; auto. simpl. apply negb_true_iff in E4. apply Z.eqb_neq in E4. lia.
      + destruct E3' as (_ & _ & _ & G & _). intro. exfalso. auto.
    - destruct (emit c1 b1 _) as [[c2 b2] f2] eqn:E5. apply emit_same in E5.
      destruct f2; [discriminate|]. inversion H; subst.
      split; [apply cinv0_state; eapply cinv0_same; eauto | auto].
  Qed.


  Lemma scalar_arm : forall c b e c' b' w fin,
    scalar c b e = Next B c' b' w fin -> cinv0 c -> arm_ok c c' w fin.
  Proof.
    intros c b e c' b' w fin E I. apply scalar_next in E; auto. destruct E as (E1 & E2 & E3 & _ & E4 & _).
    split; [exact E1|]. unfold wok. rewrite E2. auto.
  Qed.

  Lemma arm_cinv : forall c c' w fin, arm_ok c c' w fin ->
    cinv c' w /\ (fin = true -> c_state c' = S_VALUE_TYPE).
  Proof.
    intros c c' w fin (H1 & H2 & H3 & H4). split; auto. split; auto. split; auto.
    intro. congruence.
  Qed.

  (** The loop body keeps the invariant. *)
  Lemma body_next : forall known c b w d c' b' w' fin,
    cinv c w -> body known c b w d = Next B c' b' w' fin ->
    cinv c' w' /\ (fin = true -> c_state c' = S_VALUE_TYPE).
  Proof.
    intros known c b w d c' b' w' fin (W & I & Hd) H. unfold M_BinUnmarshal.body in H. cbv zeta in H.
    assert (SC : forall e, scalar c b e = Next B c' b' w' fin -> 
              cinv c' w' /\ (fin = true -> c_state c' = S_VALUE_TYPE)).
    { intros e E. eapply arm_cinv, scalar_arm; eauto. }
    assert (EM : forall e st, 
       (match emit c b e with
        | (c1, b1, None) => Next B (set_state st c1) b1 1 false
        | (c1, b1, Some f) => Bad B c1 b1 f
        end) = Next B c' b' w' fin ->
       (st = S_VALUE_TYPE \/ st = S_REAL_VALUE_TYPE) -> 
       cinv c' w' /\ (fin = true -> c_state c' = S_VALUE_TYPE)).
    { intros e st E Hst. destruct (emit c b e) as [[c1 b1] f1] eqn:E1. apply emit_same in E1.
      destruct f1; [discriminate|]. inversion E; subst. apply (arm_cinv c).
      split; [apply cinv0_state; eapply cinv0_same; eauto |].
      unfold wok. destruct Hst as [-> | ->]; simpl; repeat split; congruence. }
    assert (LA : forall st m s, (st = S_STRING \/ st = S_BINARY) ->
       length_arm B st m c b s = Next B c' b' w' fin ->
       cinv c' w' /\ (fin = true -> c_state c' = S_VALUE_TYPE)).
    { intros st m s Hst. unfold length_arm. cbv zeta.
      destruct (element_size_limit <=? u64 (get_int64 s)) eqn:E; [discriminate|].
      intro E'; inversion E'; subst. apply (arm_cinv c). split; [apply cinv0_state; auto|].
      apply Z.leb_gt in E. pose proof (unsigned_range 64 (get_int64 s)).
      unfold wok, u64 in *. destruct Hst as [-> | ->]; simpl; repeat split; try lia; congruence. }
    assert (CA : forall k s, container_arm B bstep k c b s = Next B c' b' w' fin ->
       cinv c' w' /\ (fin = true -> c_state c' = S_VALUE_TYPE)).
    { intros k s E. apply container_arm_next in E; auto. destruct E as (E1 & E2 & E3).
      apply (arm_cinv c). split; auto. unfold wok. rewrite E2. auto. }
    assert (BR : forall t, 0 <= b2z t < 256) by apply b2z_range.
    unfold hd_ok in Hd.
    destruct (c_state c) eqn:ES;
      first [specialize (Hd eq_refl) | clear Hd];
      repeat match type of H with
      | (if (zlen _ <? _) then _ else _) = _ => destruct (zlen d <? _); [discriminate|]
      | (if (zlen _ <? _) || _ then _ else _) = _ => destruct ((zlen d <? w) || (8 <? w)); [discriminate|]
      end; 
      try (eapply SC; eassumption); try (eapply EM; eauto; fail); try (eapply CA; eassumption);
      try exact (LA _ _ _ (or_introl eq_refl) H); try exact (LA _ _ _ (or_intror eq_refl) H).
    - (* magic *)
      destruct d as [|m0 [|m1 [|v0 [|v1 d]]]]; try discriminate.
      destruct (negb _); [discriminate|]. destruct (_ || _); [discriminate|].
      inversion H; subst. split; [|discriminate]. split; [reflexivity|]. split; [exact I|].
      intro; exact Hd.
    - destruct d as [|t d]; [discriminate|].
      destruct (negb _); [discriminate|].
      destruct (_ =? T_FAULT).
      + inversion H; subst. split; [|discriminate]. split; [reflexivity|].
        split; [|intro X; discriminate X].
        unfold cinv0 in *. simpl. destruct I as (I1 & I2 & I3). destruct Hd. repeat split; auto; lia.
      + destruct (_ =? T_METHOD_RESPONSE); [eapply EM; eauto|].
        destruct (_ =? T_METHOD_CALL); [|discriminate].
        inversion H; subst. split; [|discriminate]. split; [reflexivity|]. split; [exact I|].
        intro; exact Hd.
    - destruct d as [|t d]; [discriminate|].
      destruct (b2z t =? 0) eqn:E0; [unfold throw in H; discriminate|]. apply Z.eqb_neq in E0. specialize (BR t).
      inversion H; subst. split; [|discriminate]. split; [unfold wok; simpl; lia|].
      split; [exact I|]. intro; exact Hd.
    - destruct d as [|t d]; [discriminate|].
      destruct (in_struct c).
      + destruct (b2z t =? 0) eqn:E0; [unfold throw in H; discriminate|]. apply Z.eqb_neq in E0. specialize (BR t).
        inversion H; subst. split; [|discriminate]. split; [unfold wok; simpl; lia|].
        split; [exact I|]. intro X; discriminate X.
      + eapply arm_cinv, value_type_arm_next; eauto.
    - destruct d as [|t d]; [discriminate|]. eapply arm_cinv, value_type_arm_next; eauto.
    - destruct (decode_datetime (c_ver c) d); [eapply SC; eauto|discriminate].
  Qed.

  Lemma dec_members_ok : forall stk b stk' b' ,
    dec_members stk b = (stk', b', None) ->
    Forall (fun e => 1 <= fst e < element_size_limit) stk ->
    Forall (fun e => 1 <= fst e < element_size_limit) stk'
    /\ (stk = [] -> stk' = []).
  Proof.
    induction stk as [|[n k] r IH]; intros b stk' b' H F; cbn [M_BinUnmarshal.dec_members] in H.
    - inversion H; subst; auto.
    - inversion F as [|x y F1 F2]; subst. cbn [fst] in F1.
      cbv zeta in H.
      assert (EN : u32 (n - 1) = n - 1).
      { apply u32_id. unfold in_u32, element_size_limit in *. lia. }
      rewrite EN in H.
      destruct (negb (n - 1 =? 0)) eqn:E.
      + inversion H; subst. split; [|discriminate]. constructor; auto. cbn [fst].
        apply negb_true_iff, Z.eqb_neq in E. lia.
      + destruct (bstep b _) as [b1 [f|]]; [discriminate|].
        apply IH in H; auto. destruct H. split; auto. discriminate.
  Qed.

  Lemma decrement_ok : forall fin c b c' b' w,
    decrement fin c b = (c', b', None) -> cinv c w -> (fin = true -> c_state c = S_VALUE_TYPE) ->
    cinv c' w.
  Proof.
    intros fin c b c' b' w H (W & I & Hd) HS. unfold M_BinUnmarshal.decrement in H.
    destruct fin; [|inversion H; subst; exact (conj W (conj I Hd))].
    destruct (dec_members (c_stack c) b) as [[s b1] f1] eqn:E. inversion H; subst.
    destruct I as (I1 & I2 & I3).
    apply dec_members_ok in E; auto. destruct E as [E1 E2].
    split; [exact W|]. split; [split; [exact E1|split; [exact I2|]]|].
    - simpl. auto.
    - intro X. simpl in X. rewrite (HS eq_refl) in X. discriminate X.
  Qed.

  (** ** Locality: the body looks only at the [wanted] bytes. *)
  Lemma split_at : forall (s : bytes) n, Z.of_nat n <= zlen s ->
    exists a r, s = a ++ r /\ length a = n.
  Proof.
    intros s n H. exists (firstn n s), (skipn n s). rewrite firstn_skipn.
    split; auto. rewrite firstn_length. unfold zlen in H. lia.
  Qed.

  Lemma body_local : forall known c b w s t,
    cinv c w -> w <= zlen s -> body known c b w (s ++ t) = body known c b w s.
  Proof.
    intros known c b w s t (W & _ & _) L. unfold wok in W.
    pose proof (zlen_nonneg _ t) as T0.
    assert (E1 : zlen (s ++ t) <? w = false) by (rewrite zlen_app; lia).
    assert (E2 : zlen s <? w = false) by lia.
    assert (E3 : ztake w (s ++ t) = ztake w s) by (apply ztake_app_le; lia).
    unfold M_BinUnmarshal.body. cbv zeta. rewrite E1, E2, E3.
    destruct (c_state c) eqn:ES; try reflexivity;
      try (destruct s as [|x s]; [rewrite zlen_nil in L; lia|]; reflexivity).
    - subst w. destruct s as [|m0 [|m1 [|v0 [|v1 s]]]]; rewrite ?zlen_cons, ?zlen_nil in L; try lia.
      reflexivity.
    - subst w. rewrite E1, E2, E3. reflexivity.
    - unfold decode_datetime. subst w. destruct (2 <? v_major (c_ver c)).
      + destruct (split_at s 14 L) as (a & r & -> & EL).
        do 14 (destruct a as [|? a]; [discriminate EL|]). destruct a; [|discriminate EL]. reflexivity.
      + destruct (split_at s 10 L) as (a & r & -> & EL).
        do 10 (destruct a as [|? a]; [discriminate EL|]). destruct a; [|discriminate EL]. reflexivity.
  Qed.

  (** ** The loop without buffering: [s] is all the data not yet consumed. *)
  Fixpoint lrun (fuel : nat) (known : bool) (c : core) (w : Z) (b : B) (s : bytes)
    : core * Z * B * bytes * ending :=
    if w <=? zlen s then
      match fuel with
      | O => (c, w, b, s, OutOfFuel)
      | S fuel' =>
          match body known c b w s with
          | Stop _ => (c, w, b, s, Stopped)
          | Bad _ c' b' f => (c', w, b', s, Failed f)
          | Next _ c' b' want fin =>
              match decrement fin c' b' with
              | (c2, b2, Some f) => (c2, w, b2, s, Failed f)
              | (c2, b2, None) => lrun fuel' known c2 want b2 (zdrop w s)
              end
          end
      end
    else (c, w, b, s, Finished).

  Definition lfuel (s : bytes) : nat := (2 * length s + 2)%nat.
  Definition measure (w : Z) (s : bytes) : nat :=
    (2 * length s + (if (w =? 0)%Z then 1 else 0))%nat.

  Lemma next_want : forall known c b w d c' b' w' fin,
    cinv c w -> body known c b w d = Next B c' b' w' fin -> w = 0 -> w' = 1.
  Proof.
    intros known c b w d c' b' w' fin I H E0.
    destruct (cinv_zero _ _ I E0) as [ES|ES];
      unfold M_BinUnmarshal.body in H; rewrite ES in H; cbv zeta in H;
      destruct (zlen d <? w); try discriminate;
      apply scalar_next in H; try apply I; apply H.
  Qed.

  Lemma lrun_fuel : forall f known c w b s, cinv c w -> (measure w s < f)%nat ->
    snd (lrun f known c w b s) <> OutOfFuel.
  Proof.
    induction f as [|f IH]; intros known c w b s I M; [lia|].
    cbn [lrun]. destruct (w <=? zlen s) eqn:E; [|discriminate]. apply Z.leb_le in E.
    destruct (body known c b w s) as [c' b' want fin| |] eqn:EB; try discriminate.
    destruct (decrement fin c' b') as [[c2 b2] [g|]] eqn:ED; [discriminate|].
    destruct (body_next _ _ _ _ _ _ _ _ _ I EB) as [I' HF].
    pose proof (decrement_ok _ _ _ _ _ _ ED I' HF) as I2.
    apply IH; auto.
    pose proof (next_want _ _ _ _ _ _ _ _ _ I EB) as NW.
    pose proof (cinv_nonneg _ _ I).
    assert (LZ : Z.of_nat (length (zdrop w s)) = Z.of_nat (length s) - w).
    { pose proof (zlen_zdrop _ w s). unfold zlen in *. lia. }
    unfold measure in *.
    destruct (w =? 0) eqn:E0.
    - apply Z.eqb_eq in E0. rewrite (NW E0). change (if 1 =? 0 then 1%nat else 0%nat) with 0%nat. lia.
    - apply Z.eqb_neq in E0. destruct (want =? 0); lia.
  Qed.

  Lemma lrun_mono : forall f known c w b s r, lrun f known c w b s = r -> snd r <> OutOfFuel ->
    forall g, (f <= g)%nat -> lrun g known c w b s = r.
  Proof.
    induction f as [|f IH]; intros known c w b s r H N g G.
    - destruct g; cbn [lrun] in *; destruct (w <=? zlen s); auto; subst; simpl in N; congruence.
    - destruct g as [|g]; [lia|]. cbn [lrun] in *.
      destruct (w <=? zlen s); auto.
      destruct (body known c b w s) as [c' b' want fin| |]; auto.
      destruct (decrement fin c' b') as [[c2 b2] [h|]]; auto.
      apply IH; auto. lia.
  Qed.

  (** Any sufficient fuel gives the same result. *)
  Definition lbig (known : bool) (c : core) (w : Z) (b : B) (s : bytes) :=
    lrun (lfuel s) known c w b s.

  Lemma measure_lfuel : forall w s, (measure w s < lfuel s)%nat.
  Proof. intros. unfold measure, lfuel. destruct (w =? 0); lia. Qed.

  Lemma lbig_fuel : forall f known c w b s, cinv c w -> (measure w s < f)%nat ->
    lrun f known c w b s = lbig known c w b s.
  Proof.
    intros f known c w b s I M. pose proof (measure_lfuel w s).
    assert (H1 := lrun_mono f known c w b s _ eq_refl (lrun_fuel f known c w b s I M)).
    assert (H2 := lrun_mono (lfuel s) known c w b s _ eq_refl
                    (lrun_fuel (lfuel s) known c w b s I H)).
    unfold lbig. rewrite <- (H1 (max f (lfuel s))), <- (H2 (max f (lfuel s))) by lia. reflexivity.
  Qed.

  (** One-step unfolding. *)
  Lemma lbig_eq : forall known c w b s, cinv c w ->
    lbig known c w b s =
    if w <=? zlen s then
      match body known c b w s with
      | Stop _ => (c, w, b, s, Stopped)
      | Bad _ c' b' f => (c', w, b', s, Failed f)
      | Next _ c' b' want fin =>
          match decrement fin c' b' with
          | (c2, b2, Some f) => (c2, w, b2, s, Failed f)
          | (c2, b2, None) => lbig known c2 want b2 (zdrop w s)
          end
      end
    else (c, w, b, s, Finished).
  Proof.
    intros known c w b s I. unfold lbig at 1. unfold lfuel.
    replace (2 * length s + 2)%nat with (S (2 * length s + 1))%nat by lia. cbn [lrun].
    destruct (w <=? zlen s) eqn:E; auto. apply Z.leb_le in E.
    destruct (body known c b w s) as [c' b' want fin| |] eqn:EB; auto.
    destruct (decrement fin c' b') as [[c2 b2] [g|]] eqn:ED; auto.
    destruct (body_next _ _ _ _ _ _ _ _ _ I EB) as [I' HF].
    pose proof (decrement_ok _ _ _ _ _ _ ED I' HF) as I2.
    apply lbig_fuel; auto.
    pose proof (next_want _ _ _ _ _ _ _ _ _ I EB) as NW.
    pose proof (cinv_nonneg _ _ I).
    assert (LZ : Z.of_nat (length (zdrop w s)) = Z.of_nat (length s) - w).
    { pose proof (zlen_zdrop _ w s). unfold zlen in *. lia. }
    unfold measure.
    destruct (Z.eq_dec w 0) as [E0|E0].
    - rewrite (NW E0). change (if 1 =? 0 then 1%nat else 0%nat) with 0%nat. lia.
    - destruct (want =? 0); lia.
  Qed.

  (** Induction along the loop. *)
  Lemma lbig_ind : forall (known : bool) (P : core -> Z -> B -> bytes -> core * Z * B * bytes * ending -> Prop),
    (forall c w b s, cinv c w -> zlen s < w -> P c w b s (c, w, b, s, Finished)) ->
    (forall c w b s, cinv c w -> w <= zlen s -> body known c b w s = Stop B -> P c w b s (c, w, b, s, Stopped)) ->
    (forall c w b s c' b' f, cinv c w -> w <= zlen s -> body known c b w s = Bad B c' b' f ->
       P c w b s (c', w, b', s, Failed f)) ->
    (forall c w b s c' b' w' fin c2 b2 f, cinv c w -> w <= zlen s -> body known c b w s = Next B c' b' w' fin ->
       cinv c' w' -> decrement fin c' b' = (c2, b2, Some f) -> P c w b s (c2, w, b2, s, Failed f)) ->
    (forall c w b s c' b' w' fin c2 b2 r, cinv c w -> w <= zlen s -> body known c b w s = Next B c' b' w' fin ->
       decrement fin c' b' = (c2, b2, None) -> cinv c' w' -> cinv c2 w' ->
       r = lbig known c2 w' b2 (zdrop w s) ->
       P c2 w' b2 (zdrop w s) r -> P c w b s r) ->
    forall c w b s, cinv c w -> P c w b s (lbig known c w b s).
  Proof.
    intros known P HFin HStop HBad HDec HNext c w b s.
    assert (G : forall f c w b s, cinv c w -> (measure w s < f)%nat -> P c w b s (lbig known c w b s)).
    { induction f as [|f IH]; intros c0 w0 b0 s0 I M; [lia|].
      rewrite lbig_eq by auto. destruct (w0 <=? zlen s0) eqn:E.
      2:{ apply HFin; auto. lia. }
      apply Z.leb_le in E.
      destruct (body known c0 b0 w0 s0) as [c' b' want fin| |] eqn:EB; [|apply HStop; auto|apply HBad; auto].
      destruct (body_next _ _ _ _ _ _ _ _ _ I EB) as [I' HF].
      destruct (decrement fin c' b') as [[c2 b2] [g|]] eqn:ED.
      { eapply HDec; eauto. }
      pose proof (decrement_ok _ _ _ _ _ _ ED I' HF) as I2.
      eapply HNext; eauto. apply IH; auto.
      pose proof (next_want _ _ _ _ _ _ _ _ _ I EB) as NW.
      pose proof (cinv_nonneg _ _ I).
      assert (LZ : Z.of_nat (length (zdrop w0 s0)) = Z.of_nat (length s0) - w0).
      { pose proof (zlen_zdrop _ w0 s0). unfold zlen in *. lia. }
      unfold measure in *.
      destruct (Z.eq_dec w0 0) as [E0|E0].
      - rewrite (NW E0). change (if 1 =? 0 then 1%nat else 0%nat) with 0%nat. rewrite E0 in M. simpl in M. lia.
      - destruct (w0 =? 0) eqn:?; [lia|]. destruct (want =? 0); lia. }
    intros I. apply (G (S (measure w s))); auto.
  Qed.

  Lemma lbig_finished : forall known c w b s c' w' b' r,
    lbig known c w b s = (c', w', b', r, Finished) -> cinv c w -> cinv c' w' /\ zlen r < w'.
  Proof.
    intros known c w b s c' w' b' r H I. revert c' w' b' r H.
    apply (lbig_ind known (fun c w b s r0 => forall c' w' b' r, r0 = (c', w', b', r, Finished) -> 
       cinv c' w' /\ zlen r < w')); auto; intros; try discriminate.
    match goal with H : (_, _, _, _, _) = _ |- _ => inversion H; subst; auto end.
  Qed.

  (** Feeding more data: the run on [s ++ t] continues the run on [s]. *)
  Lemma lbig_app : forall known c w b s t, cinv c w ->
    lbig known c w b (s ++ t) =
    match lbig known c w b s with
    | (c', w', b', r, Finished) => lbig known c' w' b' (r ++ t)
    | (c', w', b', r, e) => (c', w', b', r ++ t, e)
    end.
  Proof.
    intros known c w b s t I.
    apply (lbig_ind known (fun c w b s r0 => lbig known c w b (s ++ t) =
      match r0 with
      | (c', w', b', r, Finished) => lbig known c' w' b' (r ++ t)
      | (c', w', b', r, e) => (c', w', b', r ++ t, e)
      end)); auto; clear; intros; pose proof (zlen_nonneg _ t);
      rewrite lbig_eq by auto; rewrite zlen_app;
      destruct (w <=? zlen s + zlen t) eqn:E; try lia;
      rewrite body_local by (auto; lia);
      match goal with H : body _ _ _ _ _ = _ |- _ => rewrite H end; auto;
      match goal with H : decrement _ _ _ = _ |- _ => rewrite H end; auto.
    rewrite zdrop_app_le by lia. auto.
  Qed.

  (** ** The buffered loop does the same as the unbuffered one. *)
  Lemma run_lrun : forall f known c w b s,
    run f known (mkUnm c [] w) b s =
    let '(c', w', b', r, e) := lrun f known c w b s in (mkUnm c' [] w', b', r, e).
  Proof.
    induction f as [|f IH]; intros known c w b s; cbn [M_BinUnmarshal.run lrun u_wanted u_buffer u_core];
      rewrite zlen_nil, Z.add_0_l.
    - destruct (w <=? zlen s); reflexivity.
    - destruct (w <=? zlen s); [|reflexivity].
      destruct (body known c b w s) as [c' b' want fin| |]; try reflexivity.
      destruct (decrement fin c' b') as [[c2 b2] [g|]]; [reflexivity|]. apply IH.
  Qed.

  (** A decoder between two calls: it waits for more data. *)
  Definition ready (u : unm) : Prop :=
    cinv (u_core u) (u_wanted u) /\ zlen (u_buffer u) < u_wanted u.

  Lemma ready_init : ready unm_init.
  Proof. split; [exact cinv_init | reflexivity]. Qed.

  (** What the driver's run amounts to, whatever was buffered. *)
  Lemma driver_run : forall known u b data, ready u ->
    exists buf rest,
    (let '(u0, inp) := driver_init u data in run (enough_fuel u0 inp) known u0 b inp) =
    (let '(c, w, b', r, e) := lbig known (u_core u) (u_wanted u) b (u_buffer u ++ data) in
     (mkUnm c buf w, b', rest, e)) /\
    (let '(c, w, b', r, e) := lbig known (u_core u) (u_wanted u) b (u_buffer u ++ data) in
     buf ++ rest = r /\ (buf <> [] -> e = Finished -> rest = []) /\
     (buf <> [] -> w = u_wanted u) /\ (u_buffer u = [] -> buf = [])).
  Proof.
    intros known [c buf w] b data [I R]. cbn [u_core u_buffer u_wanted] in *.
    unfold driver_init. cbn [u_core u_buffer u_wanted].
    destruct buf as [|x buf].
    - (* nothing buffered *)
      unfold enough_fuel. cbn [u_buffer length Nat.add app].
      rewrite run_lrun. change (lrun (2 * length data + 2) known c w b data) with (lbig known c w b data).
      destruct (lbig known c w b data) as [[[[c' w'] b'] r] e].
      exists [], r. split; [reflexivity|]. split; [reflexivity|]. split; [intros H; exfalso; auto|]. split; [intros H; exfalso; auto|auto].
    - set (bf := x :: buf) in *.
      assert (NB : bf <> []) by discriminate.
      assert (L0 : 0 < zlen bf) by (unfold bf; rewrite zlen_cons; pose proof (zlen_nonneg _ buf); lia).
      assert (W : w < 2 ^ 30).
      { destruct I as (W & _). unfold wok, element_size_limit in W.
        destruct (c_state c); try lia. destruct (2 <? v_major (c_ver c)); lia. }
      assert (ER : u64 (w - zlen bf) = w - zlen bf) by (apply u64_id; unfold in_u64; lia).
      rewrite ER. set (n := Z.min (w - zlen bf) (zlen data)).
      pose proof (zlen_nonneg _ data) as D0.
      assert (EC : forall K : bytes -> unm * bytes, 
        match bf with [] => (mkUnm c bf w, data) | _ :: _ => K bf end = K bf) by reflexivity.
      destruct (Z_lt_le_dec (zlen data) (w - zlen bf)) as [Hs|Hs].
      + (* still not enough *)
        assert (En : n = zlen data) by (unfold n; lia).
        rewrite En. rewrite ztake_all, zdrop_all by lia.
        rewrite lbig_eq by auto. rewrite zlen_app.
        destruct (w <=? zlen bf + zlen data) eqn:E; [lia|].
        exists (bf ++ data), [].
        unfold enough_fuel. cbn [u_buffer].
        replace (2 * (length (bf ++ data) + @length byte []) + 2)%nat with
          (S (2 * (length (bf ++ data)) + 1))%nat by (simpl; lia).
        cbn [M_BinUnmarshal.run u_wanted u_buffer]. rewrite zlen_nil, Z.add_0_r, zlen_app, E.
        split; [reflexivity|]. split; [apply app_nil_r|]. split; auto. split; auto. intro X; congruence.
      + assert (En : n = w - zlen bf) by (unfold n; lia).
        rewrite En.
        set (b1 := bf ++ ztake (w - zlen bf) data). set (i1 := zdrop (w - zlen bf) data).
        assert (Lb1 : zlen b1 = w).
        { unfold b1. rewrite zlen_app, zlen_ztake by lia. lia. }
        assert (ES : bf ++ data = b1 ++ i1).
        { unfold b1, i1. rewrite <- app_assoc, ztake_zdrop. reflexivity. }
        assert (NB1 : b1 <> []) by (unfold b1, bf; discriminate).
        clearbody b1 i1.
        rewrite ES, lbig_eq by auto. rewrite zlen_app, Lb1.
        pose proof (zlen_nonneg _ i1) as I0.
        destruct (w <=? w + zlen i1) eqn:E; [|lia].
        rewrite body_local by (auto; lia).
        unfold enough_fuel. cbn [u_buffer].
        replace (2 * (length b1 + length i1) + 2)%nat with
          (S (2 * (length b1 + length i1) + 1))%nat by lia.
        cbn [M_BinUnmarshal.run u_wanted u_buffer u_core]. rewrite Lb1, E.
        rewrite (zdrop_app' _ w b1 i1) by lia.
        assert (LB1 : (0 < length b1)%nat) by (destruct b1; [congruence|simpl; lia]).
        remember b1 as bb eqn:Ebb. destruct bb as [|y b1']; [congruence|]. cbv iota. rewrite Ebb in *.
        clear Ebb y b1'.
        destruct (body known c b w b1) as [c' b' want fin| |] eqn:EB.
        * destruct (body_next _ _ _ _ _ _ _ _ _ I EB) as [I' HF].
          destruct (decrement fin c' b') as [[c2 b2] [g|]] eqn:EDc.
          { exists b1, i1. split; [reflexivity|]. split; [reflexivity|]. split; [discriminate|]. split; auto. intro X; congruence. }
          pose proof (decrement_ok _ _ _ _ _ _ EDc I' HF) as I2.
          rewrite run_lrun. rewrite lbig_fuel; auto.
          2:{ unfold measure. destruct (want =? 0); lia. }
          destruct (lbig known c2 want b2 i1) as [[[[c3 w3] b3] r3] e3].
          exists [], r3. split; [reflexivity|]. split; [reflexivity|]. split; [intros H; exfalso; auto|]. split; [intros H; exfalso; auto|auto].
        * exists b1, i1. split; [reflexivity|]. split; [reflexivity|]. split; [discriminate|]. split; auto. intro X; congruence.
        * exists b1, i1. split; [reflexivity|]. split; [reflexivity|]. split; [discriminate|]. split; auto. intro X; congruence.
  Qed.

  Definition fail_of (e : ending) : option fail :=
    match e with
    | Failed f => Some f
    | OutOfFuel => Some Undef
    | Finished | Stopped => None
    end.

  Notation unmarshall := (unmarshall B bstep req).
  Notation unmarshall_all := (unmarshall_all B bstep req).

  Lemma unmarshall_lbig : forall u b data, ready u ->
    unmarshall u b data =
    let '(c, w, b', r, e) := lbig false (u_core u) (u_wanted u) b (u_buffer u ++ data) in
    (mkUnm c r w, b', fail_of e).
  Proof.
    intros u b data R. destruct (driver_run false u b data R) as (buf & rest & H1 & H2).
    unfold M_BinUnmarshal.unmarshall.
    destruct (driver_init u data) as [u0 inp].
    rewrite H1.
    destruct (lbig false (u_core u) (u_wanted u) b (u_buffer u ++ data)) as [[[[c w] b'] r] e].
    destruct H2 as [H2 _]. unfold driver_finish. cbn [u_core u_buffer u_wanted]. rewrite H2.
    reflexivity.
  Qed.

  Lemma scalar_not_stop : forall c b e, scalar c b e <> Stop B.
  Proof.
    intros c b e. unfold M_BinUnmarshal.scalar. destruct (emit c b e) as [[? ?] [?|]]; discriminate.
  Qed.

  Lemma container_not_stop : forall k c b d, container_arm B bstep k c b d <> Stop B.
  Proof.
    intros k c b d. unfold container_arm. cbv zeta.
    destruct (_ <? _); [discriminate|]. destruct (negb _); [discriminate|].
    destruct (_ <=? _); [discriminate|].
    destruct (emit c b _) as [[c1 b1] [?|]]; [discriminate|].
    destruct (negb _); [discriminate|].
    destruct (emit c1 b1 _) as [[? ?] [?|]]; discriminate.
  Qed.

  Lemma value_type_stop : forall known c b t,
    value_type_arm B bstep known c b t = Stop B -> known = true.
  Proof.
    intros known c b t. unfold value_type_arm. cbv zeta.
    repeat match goal with
    | |- (if ?x then _ else _) = _ -> _ => destruct x; try discriminate; auto
    | |- match ?x with Some _ => _ | None => _ end = _ -> _ => destruct x; discriminate
    end; intro H; try (apply scalar_not_stop in H; contradiction); discriminate.
  Qed.

  Lemma body_not_stop : forall c b w d, body false c b w d <> Stop B.
  Proof.
    intros c b w d H. unfold M_BinUnmarshal.body in H. cbv zeta in H.
    destruct (c_state c);
      repeat match type of H with
      | (if ?x then _ else _) = _ => destruct x; try discriminate
      | match ?x with [] => _ | _ :: _ => _ end = _ => destruct x; try discriminate
      | match ?x with Some _ => _ | None => _ end = _ => destruct x; try discriminate
      | (let (_, _) := ?x in _) = _ => destruct x; try discriminate
      | length_arm _ _ _ _ _ _ = _ => unfold length_arm in H; cbv zeta in H
      end;
      try (apply value_type_stop in H; discriminate);
      try (apply scalar_not_stop in H; contradiction);
      try (apply container_not_stop in H; contradiction).
  Qed.

  Lemma lbig_not_stopped : forall c w b s, cinv c w -> snd (lbig false c w b s) <> Stopped.
  Proof.
    intros c w b s I.
    apply (lbig_ind false (fun c w b s r => snd r <> Stopped)); auto; intros; try discriminate.
    apply body_not_stop in H1. contradiction.
  Qed.

  Lemma lbig_not_out : forall known c w b s, cinv c w -> snd (lbig known c w b s) <> OutOfFuel.
  Proof. intros. apply lrun_fuel; auto. apply measure_lfuel. Qed.

  Lemma unmarshall_ready : forall u b data u' b',
    ready u -> unmarshall u b data = (u', b', None) -> ready u'.
  Proof.
    intros u b data u' b' R H. rewrite unmarshall_lbig in H by auto.
    destruct R as [I R].
    pose proof (lbig_not_stopped (u_core u) (u_wanted u) b (u_buffer u ++ data) I) as NS.
    pose proof (lbig_not_out false (u_core u) (u_wanted u) b (u_buffer u ++ data) I) as NO.
    destruct (lbig false (u_core u) (u_wanted u) b (u_buffer u ++ data)) as [[[[c w] b1] r] e] eqn:E.
    inversion H; subst. destruct e; simpl in *; try congruence; try discriminate.
    eapply lbig_finished in E; auto.
  Qed.

  (** ** Two calls are one call on the concatenation. *)
  Lemma unmarshall_app : forall u b x y, ready u ->
    unmarshall u b (x ++ y) =
    match unmarshall u b x with
    | (u1, b1, None) => unmarshall u1 b1 y
    | (u1, b1, Some f) => (mkUnm (u_core u1) (u_buffer u1 ++ y) (u_wanted u1), b1, Some f)
    end.
  Proof.
    intros u b x y R.
    destruct (unmarshall u b x) as [[u1 b1] o] eqn:E1.
    rewrite unmarshall_lbig by auto. rewrite app_assoc.
    assert (I : cinv (u_core u) (u_wanted u)) by apply R.
    rewrite lbig_app by auto.
    assert (R1 : o = None -> ready u1) by (intros ->; eapply unmarshall_ready; eauto).
    rewrite unmarshall_lbig in E1 by auto.
    pose proof (lbig_not_stopped (u_core u) (u_wanted u) b (u_buffer u ++ x) I) as NS.
    pose proof (lbig_not_out false (u_core u) (u_wanted u) b (u_buffer u ++ x) I) as NO.
    destruct (lbig false (u_core u) (u_wanted u) b (u_buffer u ++ x)) as [[[[c w] b2] r] e].
    inversion E1; subst. destruct e; simpl in *; try congruence.
    rewrite unmarshall_lbig by auto. reflexivity.
  Qed.

  Lemma unmarshall_nil : forall u b, ready u -> unmarshall u b [] = (u, b, None).
  Proof.
    intros u b R. rewrite unmarshall_lbig by auto. destruct R as [I R]. rewrite app_nil_r, lbig_eq by auto.
    destruct (u_wanted u <=? zlen (u_buffer u)) eqn:E; [lia|]. destruct u; reflexivity.
  Qed.

  Lemma unmarshall_all_concat : forall pieces u b, ready u ->
    exists u',
    unmarshall u b (concat pieces) =
      (u', snd (fst (unmarshall_all u b pieces)), snd (unmarshall_all u b pieces))
    /\ (snd (unmarshall_all u b pieces) = None -> u' = fst (fst (unmarshall_all u b pieces)))
    /\ u_core u' = u_core (fst (fst (unmarshall_all u b pieces))).
  Proof.
    induction pieces as [|p ps IH]; intros u b R.
    - exists u. simpl. rewrite unmarshall_nil by auto. auto.
    - cbn [concat M_BinUnmarshal.unmarshall_all]. rewrite unmarshall_app by auto.
      destruct (unmarshall u b p) as [[u1 b1] [f|]] eqn:E.
      + eexists. split; [reflexivity|]. split; [discriminate|reflexivity].
      + apply IH. eapply unmarshall_ready; eauto.
  Qed.

End Driver.
