(** Lemmas about the cache of proxies. *)
From Coq Require Import Lia Sorted.
From Verif Require Import Base Value Text M_Marshal M_Values M_Base64 M_Http M_Client M_Proxy S_Proxy L_Http.

(** * Choosing a queue *)
Lemma pick_queue_spec : forall fuel i D now final, (fuel + i = 19)%nat -> 2 ^ Z.of_nat i <= D -> 0 <= now -> now + 2 ^ 20 < 2 ^ 64 ->
  exists j next, pick_queue fuel i (Z.shiftr D (Z.of_nat i)) now final = (j, next) /\ 2 ^ Z.of_nat j <= D /\
    ((j < 19)%nat /\ next = now + 2 ^ Z.of_nat j /\ D < 2 * 2 ^ Z.of_nat j \/ j = 19%nat /\ next = final).
Proof.
  induction fuel as [|k IH]; intros i D now final F B N M.
  - exists i, final. split; [reflexivity|]. split; [assumption|]. right. split; [lia|reflexivity].
  - cbn [pick_queue]. rewrite Z.shiftr_shiftr by lia.
    replace (Z.of_nat i + 1) with (Z.of_nat (S i)) by lia.
    rewrite Z.shiftr_div_pow2 by lia.
    assert (P : 2 ^ Z.of_nat (S i) = 2 * 2 ^ Z.of_nat i) by (rewrite Nat2Z.inj_succ, Z.pow_succ_r by lia; reflexivity).
    assert (P0 : 0 < 2 ^ Z.of_nat i) by (apply Z.pow_pos_nonneg; lia).
    assert (P1 : 2 ^ Z.of_nat i <= 2 ^ 19) by (apply Z.pow_le_mono_r; lia).
    destruct (D / 2 ^ Z.of_nat (S i) =? 0) eqn:E.
    + apply Z.eqb_eq in E. apply Z.div_small_iff in E; [|lia].
      exists i, (now + 2 ^ Z.of_nat i). split.
      * rewrite Z.shiftl_1_l. unfold u64, unsigned. rewrite Z.mod_small by lia. reflexivity.
      * split; [assumption|]. left. repeat split; lia.
    + apply Z.eqb_neq in E.
      assert (2 ^ Z.of_nat (S i) <= D).
      { destruct (Z.le_gt_cases (2 ^ Z.of_nat (S i)) D); [assumption|]. elim E. apply Z.div_small. lia. }
      rewrite <- Z.shiftr_div_pow2 by lia. apply IH; [lia|assumption|assumption|assumption].
Qed.

Lemma schedule_spec : forall id final now qs, 0 <= now < final -> final < 2 ^ 63 ->
  exists j next, schedule id final now qs =
      set_queue j (mkTq (if next <? tq_head (qs j) then next else tq_head (qs j)) (tq_timers (qs j) ++ [mkTm id next final])) qs /\
    2 ^ Z.of_nat j <= final - now /\ now < next <= final /\
    ((j < 19)%nat /\ next = now + 2 ^ Z.of_nat j /\ final - next < 2 ^ Z.of_nat j \/ j = 19%nat /\ next = final).
Proof.
  intros id final now qs N F. unfold schedule.
  assert (U : u64 (final - now) = final - now) by (unfold u64, unsigned; apply Z.mod_small; lia). rewrite U.
  assert (A2 : 2 ^ Z.of_nat 0 <= final - now) by (change (2 ^ Z.of_nat 0) with 1; lia).
  assert (A3 : 0 <= now) by lia.
  assert (A4 : now + 2 ^ 20 < 2 ^ 64) by lia.
  destruct (pick_queue_spec 19 0 (final - now) now final eq_refl A2 A3 A4) as (j & next & E & B & C).
  change (Z.of_nat 0) with 0 in E. rewrite Z.shiftr_0_r in E. change (QUEUES - 1)%nat with 19%nat. rewrite E.
  exists j, next. split; [reflexivity|]. split; [assumption|].
  assert (P0 : 0 < 2 ^ Z.of_nat j) by (apply Z.pow_pos_nonneg; lia).
  destruct C as [(J & -> & D)|(J & ->)].
  - split; [lia|]. left. repeat split; lia.
  - split; [lia|]. right. split; [assumption|reflexivity].
Qed.

Lemma set_same : forall i q qs, set_queue i q qs i = q.
Proof. intros. unfold set_queue. rewrite Nat.eqb_refl. reflexivity. Qed.
Lemma set_other : forall i j q qs, j <> i -> set_queue i q qs j = qs j.
Proof. intros i j q qs H. unfold set_queue. apply Nat.eqb_neq in H. rewrite H. reflexivity. Qed.

(** * The invariant *)
Section Inv.
  (** The time-out in milliseconds. *)
  Variable ms : Z.

  Definition timer_ok (now : Z) (i : nat) (t : timer) : Prop :=
    tm_final t < 2 ^ 62 + 2 ^ 32 /\
    ((i < 19)%nat -> tm_next t <= now + 2 ^ Z.of_nat i /\ tm_next t <= tm_final t /\ tm_final t - tm_next t < 2 ^ Z.of_nat i) /\
    (i = 19%nat -> tm_next t = tm_final t /\ tm_final t <= now + ms).
  Definition queue_ok (now : Z) (i : nat) (q : tqueue) : Prop :=
    Forall (timer_ok now i) (tq_timers q) /\ Forall (fun t => tq_head q <= tm_next t) (tq_timers q) /\
    StronglySorted (fun a b => tm_next a <= tm_next b) (tq_timers q).

  Definition entries := list (Z * (Z * proxy)).
  Definition map_of (es : entries) : list (Z * proxy) := map (fun e => (fst e, snd (snd e))) es.

  Record good (now : Z) (es : entries) (c : cache) : Prop := mkGood {
    good_map : k_map c = map_of es;
    good_queue : forall i, (i < 20)%nat -> queue_ok now i (k_queues c i);
    good_id : forall i t, (i < 20)%nat -> In t (tq_timers (k_queues c i)) -> tm_id t < k_fresh c;
    good_entry : forall e, In e es -> fst e < k_fresh c;
    good_nodup : NoDup (map fst es);
    good_final : forall i t f p, (i < 20)%nat -> In t (tq_timers (k_queues c i)) -> In (tm_id t, (f, p)) es -> f = tm_final t;
    good_timer : forall e, In e es -> exists i t, (i < 20)%nat /\ In t (tq_timers (k_queues c i)) /\ tm_id t = fst e
  }.

  Lemma timer_later : forall now now' i t, now <= now' -> timer_ok now i t -> timer_ok now' i t.
  Proof. intros now now' i t L (A & B & C). split; [assumption|]. split; intros H; [specialize (B H)|specialize (C H)]; intuition lia. Qed.
  Lemma queue_later : forall now now' i q, now <= now' -> queue_ok now i q -> queue_ok now' i q.
  Proof. intros now now' i q L (A & B & C). split; [|auto]. eapply Forall_impl; [|exact A]. intros t. apply timer_later. assumption. Qed.
  Lemma good_later : forall now now' es c, now <= now' -> good now es c -> good now' es c.
  Proof. intros now now' es c L []. constructor; auto. intros i I. eapply queue_later; eauto. Qed.

  Lemma sorted_snoc : forall (l : list timer) t, StronglySorted (fun a b => tm_next a <= tm_next b) l -> Forall (fun a => tm_next a <= tm_next t) l ->
    StronglySorted (fun a b => tm_next a <= tm_next b) (l ++ [t]).
  Proof.
    induction l as [|a l IH]; intros t S F.
    - constructor; constructor.
    - inversion S; subst. inversion F; subst. cbn. constructor; [apply IH; assumption|].
      apply Forall_app. split; [assumption|]. constructor; [assumption|constructor].
  Qed.

  (** A timer put into its queue. *)
  Lemma queue_snoc : forall now j next id final q, queue_ok now j q -> timer_ok now j (mkTm id next final) ->
    ((j < 19)%nat -> next = now + 2 ^ Z.of_nat j) -> (j = 19%nat -> next = now + ms) ->
    (j < 20)%nat ->
    queue_ok now j (mkTq (if next <? tq_head q then next else tq_head q) (tq_timers q ++ [mkTm id next final])).
  Proof.
    intros now j next id final q (A & B & C) T J1 J2 J. split; [|split]; cbn [tq_timers tq_head].
    - apply Forall_app. split; [assumption|]. constructor; [assumption|constructor].
    - apply Forall_app. split; [|constructor; [cbn|constructor]].
      + eapply Forall_impl; [|exact B]. intros t L. cbn beta in L. destruct (next <? tq_head q) eqn:E; [apply Z.ltb_lt in E|]; lia.
      + destruct (next <? tq_head q) eqn:E; [|apply Z.ltb_ge in E]; lia.
    - apply sorted_snoc; [assumption|]. rewrite Forall_forall in A |- *. intros t I. cbn. destruct (A t I) as (_ & X & Y).
      assert (D : (j < 19)%nat \/ j = 19%nat) by lia. destruct D as [D|D].
      + specialize (X D). specialize (J1 D). lia.
      + specialize (Y D). specialize (J2 D). lia.
  Qed.

  (** What [schedule] does, used for an entry that is new ([final = now + ms]) or leaves queue [i]. *)
  Lemma schedule_good : forall id final now qs, 0 <= now < final -> final < 2 ^ 62 + 2 ^ 32 ->
    (forall i, (i < 20)%nat -> queue_ok now i (qs i)) -> final = now + ms \/ final - now < 2 ^ 19 ->
    exists j next, (j < 20)%nat /\ 2 ^ Z.of_nat j <= final - now /\ now < next /\
      (forall i, (i < 20)%nat -> queue_ok now i (schedule id final now qs i)) /\
      (forall i, i <> j -> schedule id final now qs i = qs i) /\
      tq_timers (schedule id final now qs j) = tq_timers (qs j) ++ [mkTm id next final].
  Proof.
    intros id final now qs N F Q W.
    destruct (schedule_spec id final now qs N) as (j & next & E & B & M & C); [lia|].
    exists j, next. rewrite E.
    assert (J : (j < 20)%nat) by (destruct C as [C|C]; lia).
    split; [assumption|]. split; [assumption|]. split; [lia|]. split.
    - intros i I. destruct (Nat.eq_dec i j) as [->|D]; [|rewrite set_other by assumption; auto].
      rewrite set_same. apply queue_snoc; auto.
      + split; [cbn; lia|]. cbn [tm_next tm_final]. split; intros D; destruct C as [C|C]; try lia.
        destruct W as [W|W]; [lia|]. destruct C as (-> & C).
        change (Z.of_nat 19) with 19 in B. lia.
      + intros D. destruct C as [C|C]; lia.
      + intros D. destruct C as [C|C]; [lia|]. destruct W as [W|W]; [lia|]. destruct C as (-> & C).
        change (Z.of_nat 19) with 19 in B. lia.
    - split; [intros i D; apply set_other; assumption|]. rewrite set_same. reflexivity.
  Qed.

  (** * Looking through the queues *)
  Lemma map_erase : forall id es, erase_id id (map_of es) = map_of (filter (fun e => negb (fst e =? id)) es).
  Proof.
    intros id es. unfold erase_id, map_of. induction es as [|e es IH]; [reflexivity|].
    cbn [map filter fst]. destruct (negb (fst e =? id)); cbn [map]; rewrite IH; reflexivity.
  Qed.
  Definition alive (now : Z) (es : entries) : entries := filter (fun e => now <? fst (snd e)) es.

  Lemma filter_filter_same {A} : forall (f g : A -> bool) l, (forall x, In x l -> f x = true -> g x = true) ->
    filter f (filter g l) = filter f l.
  Proof.
    intros f g. induction l as [|x l IH]; intros H; [reflexivity|].
    cbn [filter]. destruct (g x) eqn:G; cbn [filter].
    - rewrite IH; [reflexivity|]. intros y I. apply H. right. assumption.
    - destruct (f x) eqn:F; [rewrite (H x) in G; [discriminate|left; reflexivity|assumption]|].
      apply IH. intros y I. apply H. right. assumption.
  Qed.
  Lemma nodup_filter : forall (f : Z * (Z * proxy) -> bool) es, NoDup (map fst es) -> NoDup (map fst (filter f es)).
  Proof.
    intros f. induction es as [|e es IH]; intros N; [constructor|].
    cbn in *. inversion N; subst. destruct (f e); [|auto]. cbn. constructor; [|auto].
    intros I. apply in_map_iff in I. destruct I as (x & E & I). apply filter_In in I. destruct I as (I & _).
    apply H1. apply in_map_iff. exists x. auto.
  Qed.

  (** One queue: all that is due leaves it; queues before it get timers that are not due. *)
  Lemma retire_good : forall fuel now i es c, (i < 20)%nat -> 0 <= now -> good now es c ->
    (forall j t, (j < i)%nat -> In t (tq_timers (k_queues c j)) -> now < tm_next t) ->
    (List.length (tq_timers (k_queues c i)) < fuel)%nat ->
    exists es' c', retire fuel now i c = Some c' /\ good now es' c' /\ alive now es' = alive now es /\ k_fresh c' = k_fresh c /\
      (forall j t, (j <= i)%nat -> In t (tq_timers (k_queues c' j)) -> now < tm_next t).
  Proof.
    induction fuel as [|k IH]; intros now i es c I N G D L; [lia|].
    cbn [retire]. destruct (tq_timers (k_queues c i)) as [|t r] eqn:E.
    - exists es, c. split; [reflexivity|]. split; [assumption|]. split; [reflexivity|]. split; [reflexivity|].
      intros j t J T. destruct (Nat.eq_dec j i) as [->|X]; [rewrite E in T; destruct T|]. apply (D j); [lia|assumption].
    - pose proof (good_queue _ _ _ G i I) as (QA & QB & QC). rewrite E in QA, QB, QC.
      destruct (now <? tm_next t) eqn:E1.
      + apply Z.ltb_lt in E1. exists es. eexists. split; [reflexivity|].
        assert (S1 : forall j, tq_timers (set_queue i (mkTq (tm_next t) (t :: r)) (k_queues c) j) = tq_timers (k_queues c j)).
        { intros j. destruct (Nat.eq_dec j i) as [->|X]; [rewrite set_same; symmetry; exact E|rewrite set_other by assumption; reflexivity]. }
        inversion QC; subst.
        split; [|split; [reflexivity|split; [reflexivity|]]].
        * destruct G. constructor; cbn [k_map k_queues k_fresh]; auto.
          -- intros j J. destruct (Nat.eq_dec j i) as [->|X]; [|rewrite set_other by assumption; auto].
             rewrite set_same. split; [|split]; cbn [tq_timers tq_head]; auto.
             constructor; [lia|]. exact H2.
          -- intros j x J. rewrite S1. eauto.
          -- intros j x f p J. rewrite S1. eauto.
          -- intros e X. destruct (good_timer0 e X) as (j & x & J1 & J2 & J3). exists j, x. rewrite S1. auto.
        * intros j x J X. cbn [k_queues] in X. rewrite S1 in X. destruct (Nat.eq_dec j i) as [->|Y]; [|apply (D j); [lia|assumption]].
          rewrite E in X. destruct X as [<-|X]; [assumption|]. rewrite Forall_forall in H2. specialize (H2 x X). lia.
      + apply Z.ltb_ge in E1. cbv zeta.
        set (qs := set_queue i (mkTq (tq_head (k_queues c i)) r) (k_queues c)).
        assert (QS : forall j, (j < 20)%nat -> queue_ok now j (qs j)).
        { intros j J. unfold qs. destruct (Nat.eq_dec j i) as [->|X]; [|rewrite set_other by assumption; apply (good_queue _ _ _ G); assumption].
          rewrite set_same. inversion QA; inversion QB; inversion QC; subst. split; [|split]; assumption. }
        assert (QI : forall j x, In x (tq_timers (qs j)) -> In x (tq_timers (k_queues c j))).
        { intros j x. unfold qs. destruct (Nat.eq_dec j i) as [->|X]; [|rewrite set_other by assumption; auto].
          rewrite set_same. cbn. rewrite E. right. assumption. }
        assert (QJ : forall j x, In x (tq_timers (k_queues c j)) -> In x (tq_timers (qs j)) \/ (j = i /\ x = t)).
        { intros j x. unfold qs. destruct (Nat.eq_dec j i) as [->|X]; [|rewrite set_other by assumption; auto].
          rewrite set_same. cbn. rewrite E. intros [<-|Y]; auto. }
        assert (LEN : (List.length (tq_timers (qs i)) < k)%nat) by (unfold qs; rewrite set_same; cbn in *; lia).
        pose proof (Forall_inv QA) as (TF & T1 & T2).
        destruct (now <? tm_final t) eqn:E2.
        * apply Z.ltb_lt in E2.
          assert (I19 : (i < 19)%nat) by (assert (Y : (i < 19)%nat \/ i = 19%nat) by lia; destruct Y as [Y|Y]; [assumption|]; specialize (T2 Y); lia).
          specialize (T1 I19).
          assert (P19 : 2 ^ Z.of_nat i <= 2 ^ 19) by (apply Z.pow_le_mono_r; lia).
          destruct (schedule_good (tm_id t) (tm_final t) now qs) as (j & next & J & JB & JN & JQ & JO & JT); [lia|lia|assumption|right; lia|].
          assert (JI : (j < i)%nat).
          { destruct (Nat.lt_ge_cases j i) as [Y|Y]; [assumption|]. assert (2 ^ Z.of_nat i <= 2 ^ Z.of_nat j) by (apply Z.pow_le_mono_r; lia). lia. }
          set (qs' := schedule (tm_id t) (tm_final t) now qs) in *.
          assert (RI : forall h x, In x (tq_timers (qs' h)) -> In x (tq_timers (qs h)) \/ (h = j /\ x = mkTm (tm_id t) next (tm_final t))).
          { intros h x. destruct (Nat.eq_dec h j) as [->|X]; [|rewrite JO by assumption; auto].
            rewrite JT. intros Y. apply in_app_or in Y. destruct Y as [Y|[<-|[]]]; auto. }
          assert (RJ : forall h x, In x (tq_timers (qs h)) -> In x (tq_timers (qs' h))).
          { intros h x. destruct (Nat.eq_dec h j) as [->|X]; [|rewrite JO by assumption; auto]. rewrite JT. intros Y. apply in_or_app. auto. }
          apply (IH now i es (mkCache (k_map c) qs' (k_fresh c))); auto.
          -- destruct G. constructor; cbn [k_map k_queues k_fresh]; auto.
             ++ intros h x H X. destruct (RI h x X) as [Y|(-> & ->)]; [apply (good_id0 h); auto|cbn].
                apply (good_id0 i); [assumption|]. rewrite E. left. reflexivity.
             ++ intros h x f p H X Y. destruct (RI h x X) as [Z|(-> & ->)]; [apply (good_final0 h x f p); auto|cbn in *].
                apply (good_final0 i t f p); auto. rewrite E. left. reflexivity.
             ++ intros e X. destruct (good_timer0 e X) as (h & x & H1 & H2 & H3).
                destruct (QJ h x H2) as [Y|(-> & ->)]; [exists h, x; auto|].
                exists j, (mkTm (tm_id t) next (tm_final t)). split; [assumption|]. split; [|assumption].
                rewrite JT. apply in_or_app. right. left. reflexivity.
          -- intros h x H X. cbn [k_queues] in X. destruct (RI h x X) as [Y|(-> & ->)]; [apply (D h); auto|cbn; assumption].
          -- cbn [k_queues]. rewrite JO by lia. assumption.
        * apply Z.ltb_ge in E2.
          edestruct (IH now i (filter (fun e => negb (fst e =? tm_id t)) es) (mkCache (erase_id (tm_id t) (k_map c)) qs (k_fresh c))) as (es' & c' & R1 & R2 & R3 & R4 & R5);
            [exact I|exact N| | | |exists es', c'; split; [exact R1|split; [exact R2|split; [|split; [exact R4|exact R5]]]]].
          -- destruct G. constructor; cbn [k_map k_queues k_fresh]; auto.
             ++ rewrite good_map0. apply map_erase.
             ++ intros h x H X. apply (good_id0 h); auto.
             ++ intros e X. apply filter_In in X. apply good_entry0. tauto.
             ++ apply nodup_filter. assumption.
             ++ intros h x f p H X Y. apply filter_In in Y. apply (good_final0 h x f p); auto. tauto.
             ++ intros e X. apply filter_In in X. destruct X as (X1 & X2). destruct (good_timer0 e X1) as (h & x & H1 & H2 & H3).
                exists h, x. split; [assumption|]. split; [|assumption].
                destruct (QJ h x H2) as [Y|(-> & ->)]; [assumption|]. rewrite H3, Z.eqb_refl in X2. discriminate.
          -- intros h x H X. apply (D h); auto.
          -- cbn [k_queues]. assumption.
          -- rewrite R3. unfold alive. apply filter_filter_same. intros e X Y.
             destruct (fst e =? tm_id t) eqn:Z; [|reflexivity]. apply Z.eqb_eq in Z. destruct e as (id & f & p). cbn in *. subst id.
             rewrite (good_final _ _ _ G i t f p) in Y; auto; [apply Z.ltb_lt in Y; lia|]. rewrite E. left. reflexivity.
  Qed.

  Lemma upkeep_from_good : forall n i now es c, (n + i = 20)%nat -> 0 <= now -> good now es c ->
    (forall j t, (j < i)%nat -> In t (tq_timers (k_queues c j)) -> now < tm_next t) ->
    exists es' c', upkeep_from n i now c = Some c' /\ good now es' c' /\ alive now es' = alive now es /\ k_fresh c' = k_fresh c /\
      (forall j t, (j < 20)%nat -> In t (tq_timers (k_queues c' j)) -> now < tm_next t).
  Proof.
    induction n as [|k IH]; intros i now es c F N G D.
    - exists es, c. split; [reflexivity|]. split; [assumption|]. split; [reflexivity|]. split; [reflexivity|].
      intros j t J. apply D. lia.
    - cbn [upkeep_from]. destruct (now <? tq_head (k_queues c i)) eqn:E.
      + apply Z.ltb_lt in E. apply IH; [lia|assumption|assumption|].
        intros j t J T. destruct (Nat.eq_dec j i) as [->|X]; [|apply (D j); [lia|assumption]].
        destruct (good_queue _ _ _ G i) as (_ & B & _); [lia|]. rewrite Forall_forall in B. specialize (B t T). lia.
      + destruct (retire_good (S (List.length (tq_timers (k_queues c i)))) now i es c) as (es1 & c1 & R1 & R2 & R3 & R4 & R5); auto; [lia|].
        rewrite R1. destruct (IH (S i) now es1 c1) as (es2 & c2 & Q1 & Q2 & Q3 & Q4 & Q5); auto; [lia|intros j t J; apply R5; lia|].
        exists es2, c2. split; [exact Q1|]. split; [exact Q2|]. split; [congruence|]. split; [congruence|]. exact Q5.
  Qed.

  (** After it exactly the entries with time left are there. *)
  Lemma upkeep_good : forall now es c, 0 <= now -> good now es c ->
    exists c', upkeep now c = Some c' /\ good now (alive now es) c'.
  Proof.
    intros now es c N G. destruct (upkeep_from_good 20 0 now es c eq_refl N G) as (es' & c' & R1 & R2 & R3 & R4 & R5); [intros j t J; lia|].
    exists c'. split; [exact R1|].
    assert (A : alive now es' = es').
    { unfold alive. pose proof R2 as G'. clear - R5 G'. 
      assert (H : forall e, In e es' -> (now <? fst (snd e)) = true).
      { intros (id & f & p) I. destruct (good_timer _ _ _ G' _ I) as (i & t & J1 & J2 & J3). cbn in J3. subst id.
        rewrite (good_final _ _ _ G' i t f p) by assumption. cbn. apply Z.ltb_lt.
        pose proof (R5 i t J1 J2). destruct (good_queue _ _ _ G' i J1) as (Q & _). rewrite Forall_forall in Q. destruct (Q t J2) as (_ & X & Y).
        assert (D : (i < 19)%nat \/ i = 19%nat) by lia. destruct D as [D|D]; [specialize (X D)|specialize (Y D)]; lia. }
      clear - H. induction es' as [|e es' IH]; [reflexivity|]. cbn. rewrite (H e) by (left; reflexivity). f_equal. apply IH. intros x I. apply H. right. assumption. }
    rewrite <- R3, A. exact R2.
  Qed.
End Inv.

(** * Histories *)
Lemma same_key_spec : forall a b, same_key a b = true <-> same_address a b.
Proof.
  intros a b. unfold same_key, same_address. rewrite !andb_true_iff, Z.eqb_eq.
  rewrite !bytes_eqb_spec. tauto.
Qed.

Lemma filter_split {A} : forall (f : A -> bool) l a x b, filter f l = a ++ x :: b ->
  exists l1 l2, l = l1 ++ x :: l2 /\ filter f l1 = a /\ filter f l2 = b /\ f x = true.
Proof.
  intros f. induction l as [|y l IH]; intros a x b H; [destruct a; discriminate|].
  cbn in H. destruct (f y) eqn:E.
  - destruct a as [|z a].
    + injection H as <- H. exists [], l. repeat split; auto.
    + injection H as <- H. destruct (IH _ _ _ H) as (l1 & l2 & -> & F1 & F2 & F3). exists (y :: l1), l2.
      cbn. rewrite E, F1. auto.
  - destruct (IH _ _ _ H) as (l1 & l2 & -> & F1 & F2 & F3). exists (y :: l1), l2. cbn. rewrite E. auto.
Qed.
Lemma filter_map_snd {A B} : forall (f : B -> bool) (l : list (A * B)), map snd (filter (fun e => f (snd e)) l) = filter f (map snd l).
Proof. intros f. induction l as [|e l IH]; [reflexivity|]. cbn. destruct (f (snd e)); cbn; rewrite IH; reflexivity. Qed.
Lemma filter_twice {A} : forall (f g : A -> bool) l, (forall x, f x = true -> g x = true) -> filter f (filter g l) = filter f l.
Proof. intros f g l H. apply filter_filter_same. auto. Qed.

Lemma nodup_snoc : forall (l : list Z) x, NoDup l -> ~ In x l -> NoDup (l ++ [x]).
Proof.
  induction l as [|y l IH]; intros x N I; cbn; [constructor; [auto|constructor]|].
  inversion N; subst. constructor; [|apply IH; [assumption|]; intros X; apply I; right; assumption].
  intros X. apply in_app_or in X. destruct X as [X|[X|[]]]; [auto|]. apply I. left. auto.
Qed.

Section Hist.
  Variable timeout : Z.
  Hypothesis not_zero : timeout <> 0.
  Hypothesis fits_int : - 2 ^ 31 <= timeout * 1000 < 2 ^ 31.
  Let ms := u32 (timeout * 1000).

  Lemma ms_range : 0 < ms < 2 ^ 32.
  Proof.
    unfold ms, u32, unsigned. pose proof (Z.mod_pos_bound (timeout * 1000) (2 ^ 32)) as B.
    assert (timeout * 1000 mod 2 ^ 32 <> 0); [|lia]. intros Z. apply Z.mod_divide in Z; [|lia]. destruct Z as (q & Z).
    assert (q = 0) by lia. subst q. lia.
  Qed.

  Definition matches (look : Z) (k : kept) (es : entries) : Prop :=
    map snd es = filter (fun e => look <? fst e) k.

  Lemma alive_matches : forall look now k es, look <= now -> matches look k es -> matches now k (alive now es).
  Proof.
    intros look now k es L M. unfold matches, alive in *. rewrite (filter_map_snd (fun e => now <? fst e)). rewrite M.
    apply filter_twice. intros x X. apply Z.ltb_lt in X. apply Z.ltb_lt. lia.
  Qed.

  Lemma find_key_spec : forall u es, match find_key u (map_of es) with
    | None => Forall (fun e => ~ same_address (x_url (snd (snd e))) u) es
    | Some (id, p) => exists a f b, es = a ++ (id, (f, p)) :: b /\ same_address (x_url p) u /\
        Forall (fun e => ~ same_address (x_url (snd (snd e))) u) a
    end.
  Proof.
    intros u. induction es as [|(id & f & p) es IH]; [constructor|].
    cbn [map_of map find_key fst snd]. destruct (same_key (x_url p) u) eqn:E.
    - apply same_key_spec in E. exists [], f, es. repeat split; auto; apply E.
    - assert (N : ~ same_address (x_url p) u) by (rewrite <- same_key_spec; rewrite E; discriminate).
      fold (map_of es). destruct (find_key u (map_of es)) as [(id' & p')|].
      + destruct IH as (a & g & b & -> & S & A). exists ((id, (f, p)) :: a), g, b. split; [reflexivity|]. split; [assumption|].
        constructor; assumption.
      + constructor; assumption.
  Qed.

  Lemma erase_one : forall (a : entries) id x b, NoDup (map fst (a ++ (id, x) :: b)) ->
    filter (fun e => negb (fst e =? id)) (a ++ (id, x) :: b) = a ++ b.
  Proof.
    intros a id x b N. rewrite filter_app. cbn [filter fst]. rewrite Z.eqb_refl. cbn [negb].
    rewrite map_app in N. cbn in N. pose proof (NoDup_remove_2 _ _ _ N) as X.
    assert (H : forall l : entries, ~ In id (map fst l) -> filter (fun e => negb (fst e =? id)) l = l).
    { induction l as [|e l IH]; intros Y; [reflexivity|]. cbn in *. destruct (fst e =? id) eqn:E; [apply Z.eqb_eq in E; tauto|].
      cbn. f_equal. apply IH. tauto. }
    rewrite !H; [reflexivity| |]; intros Y; apply X; apply in_or_app; auto.
  Qed.

  Lemma delink_good : forall now es c id, good ms now es c ->
    good ms now (filter (fun e => negb (fst e =? id)) es) (mkCache (erase_id id (k_map c)) (delink id (k_queues c)) (k_fresh c)).
  Proof.
    intros now es c id [].
    assert (S : forall i t, In t (tq_timers (delink id (k_queues c) i)) <-> In t (tq_timers (k_queues c i)) /\ tm_id t <> id).
    { intros i t. unfold delink. cbn. rewrite filter_In. destruct (tm_id t =? id) eqn:E; cbn.
      - apply Z.eqb_eq in E. intuition discriminate.
      - apply Z.eqb_neq in E. tauto. }
    constructor; cbn [k_map k_queues k_fresh].
    - rewrite good_map0. apply map_erase.
    - intros i I. destruct (good_queue0 i I) as (A & B & C). unfold delink. split; [|split]; cbn [tq_timers tq_head].
      + rewrite Forall_forall in *. intros t T. apply filter_In in T. apply A. tauto.
      + rewrite Forall_forall in *. intros t T. apply filter_In in T. apply B. tauto.
      + clear - C. induction (tq_timers (k_queues c i)) as [|t r IH]; [constructor|]. inversion C; subst. cbn.
        destruct (negb (tm_id t =? id)); [|auto]. constructor; [auto|]. rewrite Forall_forall in *. intros x X. apply filter_In in X. apply H2. tauto.
    - intros i t I T. apply S in T. apply (good_id0 i); tauto.
    - intros e X. apply filter_In in X. apply good_entry0. tauto.
    - apply nodup_filter. assumption.
    - intros i t f p I T X. apply S in T. apply filter_In in X. apply (good_final0 i t f p); tauto.
    - intros e X. apply filter_In in X. destruct X as (X & Y). destruct (good_timer0 e X) as (i & t & I & T & E).
      exists i, t. split; [assumption|]. split; [|assumption]. apply S. split; [assumption|]. rewrite E.
      destruct (fst e =? id) eqn:Z; [discriminate|]. apply Z.eqb_neq. assumption.
  Qed.

  Lemma put_good : forall now es c p, 0 <= now < 2 ^ 62 -> good ms now es c ->
    good ms now (es ++ [(k_fresh c, (now + ms, p))])
      (mkCache (k_map c ++ [(k_fresh c, p)]) (schedule (k_fresh c) (u64 (now + ms)) now (k_queues c)) (k_fresh c + 1)).
  Proof.
    intros now es c p N G. pose proof ms_range as M.
    assert (U : u64 (now + ms) = now + ms) by (unfold u64, unsigned; apply Z.mod_small; lia). rewrite U.
    destruct (schedule_good ms (k_fresh c) (now + ms) now (k_queues c)) as (j & next & J & _ & _ & JQ & JO & JT);
      [lia|lia|apply (good_queue _ _ _ _ G)|left; reflexivity|].
    set (qs := schedule (k_fresh c) (now + ms) now (k_queues c)) in *.
    assert (RI : forall h x, In x (tq_timers (qs h)) -> In x (tq_timers (k_queues c h)) \/ (h = j /\ x = mkTm (k_fresh c) next (now + ms))).
    { intros h x. destruct (Nat.eq_dec h j) as [->|X]; [|rewrite JO by assumption; auto].
      rewrite JT. intros Y. apply in_app_or in Y. destruct Y as [Y|[<-|[]]]; auto. }
    assert (RJ : forall h x, In x (tq_timers (k_queues c h)) -> In x (tq_timers (qs h))).
    { intros h x. destruct (Nat.eq_dec h j) as [->|X]; [|rewrite JO by assumption; auto]. rewrite JT. intros Y. apply in_or_app. auto. }
    destruct G. constructor; cbn [k_map k_queues k_fresh]; auto.
    - rewrite good_map0. unfold map_of. rewrite map_app. reflexivity.
    - intros i t I T. destruct (RI i t T) as [Y|(-> & ->)]; [specialize (good_id0 i t I Y); lia|cbn; lia].
    - intros e X. apply in_app_or in X. destruct X as [X|[<-|[]]]; [specialize (good_entry0 e X); lia|cbn; lia].
    - rewrite map_app. cbn. apply nodup_snoc; [assumption|].
      intros X. apply in_map_iff in X. destruct X as (e & E & X). specialize (good_entry0 e X). lia.
    - intros i t f q I T X. destruct (RI i t T) as [Y|(-> & ->)].
      + apply in_app_or in X. destruct X as [X|[X|[]]]; [apply (good_final0 i t f q); auto|].
        injection X as X1 X2 X3. specialize (good_id0 i t I Y). lia.
      + cbn in *. apply in_app_or in X. destruct X as [X|[X|[]]]; [|congruence].
        specialize (good_entry0 _ X). cbn in good_entry0. lia.
    - intros e X. apply in_app_or in X. destruct X as [X|[<-|[]]].
      + destruct (good_timer0 e X) as (i & t & I & T & E). exists i, t. auto.
      + exists j, (mkTm (k_fresh c) next (now + ms)). split; [assumption|]. split; [|reflexivity].
        rewrite JT. apply in_or_app. right. left. reflexivity.
  Qed.

  Lemma handed_reconfigure : forall c p, a_keep c = a_keep (x_conf p) -> reconfigure c p = handed c p.
  Proof. intros [] p E. cbn in E. unfold reconfigure, handed. cbn. rewrite E. reflexivity. Qed.

  Lemma lookup_good : forall t look k es c u conf, 0 <= t < 2 ^ 62 -> look <= t -> good ms t es c -> matches look k es ->
    Forall (fun e => a_keep (x_conf (snd e)) = true) k -> a_keep conf = true ->
    exists c' x es' k', lookup timeout t u conf c = Some (c', x) /\ good ms t es' c' /\ matches t k' es' /\
      Forall (fun e => a_keep (x_conf (snd e)) = true) k' /\
      match x with
      | None => k' = k /\ Forall (fun x => ~ fits_request u t x) k
      | Some q => exists k1 f p k2, k = k1 ++ (f, p) :: k2 /\ k' = k1 ++ k2 /\ fits_request u t (f, p) /\ Forall (fun x => ~ fits_request u t x) k1 /\ q = handed conf p
      end.
  Proof.
    intros t look k es c u conf T L G M K KC. unfold lookup.
    assert (Z0 : (timeout =? 0) = false) by (apply Z.eqb_neq; assumption). rewrite Z0.
    destruct (upkeep_good ms t es c) as (c1 & R & G1); [lia|exact G|]. rewrite R.
    assert (M1 := alive_matches look t k es ltac:(lia) M).
    pose proof (good_map _ _ _ _ G1) as GM. rewrite GM. pose proof (find_key_spec u (alive t es)) as F.
    destruct (find_key u (map_of (alive t es))) as [(id & p)|].
    - destruct F as (a & f & b & E & S & A).
      assert (G2 := delink_good t _ c1 id G1). rewrite GM in G2.
      pose proof (good_nodup _ _ _ _ G1) as ND. unfold matches in M1. rewrite E in ND, M1, G2. rewrite erase_one in G2 by assumption.
      rewrite map_app in M1. cbn [map snd] in M1. symmetry in M1. apply filter_split in M1.
      destruct M1 as (k1 & k2 & -> & F1 & F2 & F3). cbn in F3. apply Z.ltb_lt in F3.
      apply Forall_app in K. destruct K as (K1 & K2). inversion K2; subst. rewrite E.
      eexists _, _, (a ++ b), (k1 ++ k2). split; [reflexivity|]. split; [exact G2|]. split; [|split].
      + unfold matches; rewrite map_app, filter_app, F1, F2; reflexivity.
      + apply Forall_app. split; assumption.
      + exists k1, f, p, k2. split; [reflexivity|]. split; [reflexivity|]. split; [split; assumption|]. split.
        * rewrite Forall_forall. intros e I (X1 & X2).
          assert (Y : In e (map snd a)) by (rewrite <- F1; apply filter_In; split; [assumption|apply Z.ltb_lt; assumption]).
          apply in_map_iff in Y. destruct Y as (y & <- & Y). rewrite Forall_forall in A. exact (A y Y X2).
        * apply handed_reconfigure. rewrite KC. symmetry. assumption.
    - eexists _, _, (alive t es), k. split; [reflexivity|]. split; [exact G1|]. split; [exact M1|]. split; [assumption|].
      split; [reflexivity|]. rewrite Forall_forall. intros e I (X1 & X2).
      assert (Y : In e (map snd (alive t es))) by (rewrite M1; apply filter_In; split; [assumption|apply Z.ltb_lt; assumption]).
      apply in_map_iff in Y. destruct Y as (y & <- & Y). rewrite Forall_forall in F. exact (F y Y X2).
  Qed.

  Lemma move_good : forall t1 t2 look k es c p, 0 <= t1 <= t2 -> t2 < 2 ^ 62 -> look <= t1 -> good ms t1 es c -> matches look k es ->
    exists c' es', move_into timeout t1 t2 p c = Some (Ok c') /\ good ms t2 es' c' /\ matches t1 (k ++ [(t2 + ms, p)]) es'.
  Proof.
    intros t1 t2 look k es c p T T2 L G M. unfold move_into.
    assert (Z0 : (timeout =? 0) = false) by (apply Z.eqb_neq; assumption). rewrite Z0.
    destruct (upkeep_good ms t1 es c) as (c1 & R & G1); [lia|exact G|]. rewrite R.
    assert (Z1 : ((- 2 ^ 31 <=? timeout * 1000) && (timeout * 1000 <? 2 ^ 31)) = true).
    { apply andb_true_iff. split; [apply Z.leb_le|apply Z.ltb_lt]; lia. }
    rewrite Z1. cbn [negb]. cbv zeta. fold ms.
    eexists _, _. split; [reflexivity|]. split; [apply put_good; [lia|]; eapply good_later; [|exact G1]; lia|].
    unfold matches. rewrite map_app, filter_app. cbn. pose proof (alive_matches look t1 k es) as A. unfold matches in A. rewrite A by (lia || assumption).
    pose proof ms_range. assert (Z2 : (t1 <? t2 + ms) = true) by (apply Z.ltb_lt; lia). rewrite Z2. reflexivity.
  Qed.

  Lemma url_make_defined : forall s via, url_make s via <> UB.
  Proof.
    assert (H : forall s, url_parse s <> UB).
    { intros s. unfold url_parse. destruct (url_scheme s) as [[sch r]|]; [|discriminate].
      destruct (find_char 47 r); cbv zeta; destruct (find_char_from 58 _ r); try destruct (_ <? _); destruct sch; try discriminate;
        match goal with |- context [match ?h with [] => _ | _ => _ end] => destruct h end; discriminate. }
    intros s via. unfold url_make. destruct via; [apply H|]. specialize (H (b :: via)). destruct (url_parse (b :: via)); cbn; congruence.
  Qed.

  (** Whatever is held at the end is what may still be used at some time [look], not before the last look. *)
  Lemma lives_good : forall ops t look k es c, 0 <= t -> look <= t -> good ms t es c -> matches look k es ->
    Forall (fun e => a_keep (x_conf (snd e)) = true) k -> clock_from t ops ->
    exists c' xs k' es' t' look', run_lives timeout c ops = Some (Ok (c', xs)) /\ life_steps ms k ops xs k' /\
      good ms t' es' c' /\ matches look' k' es' /\ t <= t' /\ look' = last_look look ops.
  Proof.
    induction ops as [|o ops IH]; intros t look k es c T0 L G M K C.
    - exists c, [], k, es, t, look. split; [reflexivity|]. split; [constructor|]. split; [assumption|]. split; [assumption|]. split; [lia|reflexivity].
    - destruct o as [server via conf t1|p t1 t2]; cbn [clock_from] in C; cbn [run_lives].
      + destruct C as ((C1 & C2) & C). unfold make_proxy. pose proof (url_make_defined server via) as UD.
        assert (G1 := good_later ms t t1 es c C1 G).
        destruct (url_make server via) as [u|e|] eqn:EU; [|clear UD|congruence].
        * destruct (a_keep conf) eqn:EK.
          -- destruct (lookup_good t1 look k es c u conf ltac:(lia) ltac:(lia) G1 M K EK) as (c1 & x & es1 & k1 & E1 & E2 & E3 & E4 & E5).
             rewrite E1. destruct x as [q|].
             ++ destruct E5 as (l1 & f & p & l2 & -> & -> & E6 & E7 & ->).
                destruct (IH t1 t1 (l1 ++ l2) es1 c1 ltac:(lia) ltac:(lia) E2 E3 E4 C) as (c' & xs & k' & es' & t' & look' & R1 & R2 & R3 & R4 & R5 & R6).
                rewrite R1. eexists _, _, _, _, _, _. split; [reflexivity|]. split; [econstructor; [eapply step_hit; eassumption|exact R2]|].
                split; [exact R3|]. split; [exact R4|]. split; [lia|]. cbn [last_look]. rewrite ?EU, ?EK. exact R6.
             ++ destruct E5 as (-> & E6).
                destruct (IH t1 t1 k es1 c1 ltac:(lia) ltac:(lia) E2 E3 E4 C) as (c' & xs & k' & es' & t' & look' & R1 & R2 & R3 & R4 & R5 & R6).
                rewrite R1. eexists _, _, _, _, _, _. split; [reflexivity|]. split; [econstructor; [eapply step_miss; eassumption|exact R2]|].
                split; [exact R3|]. split; [exact R4|]. split; [lia|]. cbn [last_look]. rewrite ?EU, ?EK. exact R6.
          -- destruct (IH t1 look k es c ltac:(lia) ltac:(lia) G1 M K C) as (c' & xs & k' & es' & t' & look' & R1 & R2 & R3 & R4 & R5 & R6).
             rewrite R1. eexists _, _, _, _, _, _. split; [reflexivity|]. split; [econstructor; [eapply step_new; eassumption|exact R2]|].
             split; [exact R3|]. split; [exact R4|]. split; [lia|]. cbn [last_look]. rewrite ?EU, ?EK. exact R6.
        * destruct (IH t1 look k es c ltac:(lia) ltac:(lia) G1 M K C) as (c' & xs & k' & es' & t' & look' & R1 & R2 & R3 & R4 & R5 & R6).
          rewrite R1. eexists _, _, _, _, _, _. split; [reflexivity|]. split; [econstructor; [eapply step_bad; eassumption|exact R2]|].
          split; [exact R3|]. split; [exact R4|]. split; [lia|]. cbn [last_look]. rewrite ?EU, ?EK. exact R6.
      + destruct C as ((C1 & C2) & C3 & C). unfold drop_proxy.
        assert (G1 := good_later ms t t1 es c C1 G).
        destruct (a_keep (x_conf p)) eqn:EK.
        * destruct (move_good t1 t2 look k es c p ltac:(lia) C3 ltac:(lia) G1 M) as (c1 & es1 & E1 & E2 & E3).
          rewrite E1.
          assert (K1 : Forall (fun e => a_keep (x_conf (snd e)) = true) (k ++ [(t2 + ms, p)])).
          { apply Forall_app. split; [assumption|]. constructor; [exact EK|constructor]. }
          destruct (IH t2 t1 _ es1 c1 ltac:(lia) ltac:(lia) E2 E3 K1 C) as (c' & xs & k' & es' & t' & look' & R1 & R2 & R3 & R4 & R5 & R6).
          rewrite R1. eexists _, _, _, _, _, _. split; [reflexivity|]. split; [econstructor; [eapply step_keep; eassumption|exact R2]|].
          split; [exact R3|]. split; [exact R4|]. split; [lia|]. cbn [last_look]. rewrite ?EU, ?EK. exact R6.
        * destruct (IH t2 look k es c ltac:(lia) ltac:(lia) (good_later ms t1 t2 es c C2 G1) M K C) as (c' & xs & k' & es' & t' & look' & R1 & R2 & R3 & R4 & R5 & R6).
          rewrite R1. eexists _, _, _, _, _, _. split; [reflexivity|]. split; [econstructor; [eapply step_close; eassumption|exact R2]|].
          split; [exact R3|]. split; [exact R4|]. split; [lia|]. cbn [last_look]. rewrite ?EU, ?EK. exact R6.
  Qed.
End Hist.
