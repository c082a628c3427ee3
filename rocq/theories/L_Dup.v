(** Duplicate member names. *)
From Coq Require Import Lia.
From Verif Require Import Base Value M_Marshal M_BinUnmarshal M_TreeBuilder S_Events S_Value S_Wire L_Base L_Bits
  L_BinUnmarshal L_RoundTrip L_TreeBuilder L_Message L_Wire.

Lemma bytes_cmp_eqb : forall a b, bytes_cmp a b = Eq <-> bytes_eqb a b = true.
Proof.
  intros a b. split; intro H.
  - apply bytes_cmp_eq in H. subst. apply bytes_eqb_refl.
  - apply bytes_eqb_eq in H. subst. apply bytes_cmp_refl.
Qed.

Lemma map_get_set : forall A k (x : A) m k', increasing m ->
  map_get k' (map_set k x m) = if bytes_eqb k' k then Some x else map_get k' m.
Proof.
  intros A k x m k'. induction m as [|[k0 y] m IH]; intro I; cbn [map_set].
  - cbn [map_get]. destruct (bytes_eqb k' k) eqn:E.
    + apply bytes_cmp_eqb in E. rewrite E. reflexivity.
    + destruct (bytes_cmp k' k) eqn:E2; auto. apply bytes_cmp_eqb in E2. congruence.
  - cbn [increasing] in I. destruct I as [I1 I2]. destruct (bytes_cmp k k0) eqn:EC.
    + apply bytes_cmp_eq in EC. subst k0. cbn [map_get]. destruct (bytes_eqb k' k) eqn:E.
      * apply bytes_cmp_eqb in E. rewrite E. reflexivity.
      * destruct (bytes_cmp k' k) eqn:E2; auto. apply bytes_cmp_eqb in E2. congruence.
    + cbn [map_get]. destruct (bytes_eqb k' k) eqn:E.
      * apply bytes_cmp_eqb in E. rewrite E. reflexivity.
      * destruct (bytes_cmp k' k) eqn:E2; auto. apply bytes_cmp_eqb in E2. congruence.
    + cbn [map_get]. destruct (bytes_cmp k' k0) eqn:E2; [|apply IH; auto|apply IH; auto].
      apply bytes_cmp_eq in E2. subst k'. destruct (bytes_eqb k0 k) eqn:E; auto.
      apply bytes_eqb_eq in E. subst. rewrite bytes_cmp_refl in EC. discriminate.
Qed.

Lemma map_set_in : forall A k (x : A) m k' y, In (k', y) (map_set k x m) -> k' = k \/ exists y', In (k', y') m.
Proof.
  intros A k x. induction m as [|[k0 y0] m IH]; intros k' y H; cbn [map_set] in H.
  - destruct H as [H|[]]. inversion H; auto.
  - destruct (bytes_cmp k k0) eqn:E.
    + destruct H as [H|H]; [inversion H; subst; right; eexists; left; reflexivity|]. right. eexists. right. exact H.
    + destruct H as [H|H]; [inversion H; auto|]. right. eauto.
    + destruct H as [H|H]; [inversion H; subst; right; eexists; left; reflexivity|].
      apply IH in H. destruct H as [H|[y' H]]; auto. right. eexists. right. exact H.
Qed.

Lemma map_set_increasing : forall A k (x : A) m, increasing m -> increasing (map_set k x m).
Proof.
  intros A k x. induction m as [|[k0 y] m IH]; intro I; cbn [map_set].
  - cbn. split; auto. intros ? ? [].
  - cbn [increasing] in I. destruct I as [I1 I2]. destruct (bytes_cmp k k0) eqn:EC; cbn [increasing].
    + split; auto.
    + split; [|split; auto]. intros k' z [H|H].
      * inversion H; subst. exact EC.
      * eapply bytes_cmp_lt_trans; [exact EC|]. eapply I1; eauto.
    + split; auto. intros k' z H. apply map_set_in in H. destruct H as [->|[y' H]]; [|eauto].
      rewrite bytes_cmp_antisym, EC. reflexivity.
Qed.

Definition set_all {A} (m : list (bytes * A)) (l : list (bytes * A)) : list (bytes * A) :=
  fold_left (fun m kv => map_set (fst kv) (snd kv) m) l m.

Lemma set_all_increasing : forall A (l m : list (bytes * A)), increasing m -> increasing (set_all m l).
Proof. induction l as [|kv l IH]; intros m I; cbn [set_all fold_left]; auto. apply IH, map_set_increasing, I. Qed.

Lemma find_app : forall A (f : A -> bool) a b, find f (a ++ b) = match find f a with Some x => Some x | None => find f b end.
Proof. induction a as [|x a IH]; intro b; cbn [find app]; auto. destruct (f x); auto. Qed.

Lemma set_all_get : forall A (l m : list (bytes * A)) k, increasing m ->
  map_get k (set_all m l) = match last_value k l with Some x => Some x | None => map_get k m end.
Proof.
  induction l as [|[k0 x] l IH]; intros m k I; cbn [set_all fold_left]; auto.
  change (fold_left _ l ?z) with (set_all z l). rewrite IH by (apply map_set_increasing; auto).
  unfold last_value. cbn [rev fst snd]. rewrite find_app. destruct (find _ (rev l)) as [kv|]; auto.
  cbn [find fst]. rewrite map_get_set by auto. destruct (bytes_eqb k k0); reflexivity.
Qed.

Section Dup.
  Variable val : option mktime_t.
  Notation rb := (plain (make_datetime val)).
  Notation tstep := (tb_step val).

  Lemma dup_members : forall l t k acc r,
    Forall (fun kv => blen (fst kv) <= 255 /\ builds val (snd kv)) l ->
    tb_stack t = mkFrame k (BStruct acc) :: r ->
    exists m, replay tstep t (flat_map member_events l) =
              (with_stack (mkFrame k (BStruct (set_all acc (map (fun kv => (fst kv, rb (snd kv))) l))) :: r) m t, None).
  Proof.
    induction l as [|[key x] l IH]; intros t k acc r F ST; cbn [flat_map map replay].
    - exists (tb_member t). cbn [set_all fold_left]. rewrite <- ST. destruct t; reflexivity.
    - inversion F as [|? ? [HN HB] F']; subst. cbn [fst snd] in HN, HB.
      cbn [member_events fst snd app]. cbn [replay tb_step].
      set (t1 := mkTB (tb_stack t) (tb_root t) (tb_first t) key (tb_method t) (tb_errnum t) (tb_errmsg t) (tb_under t)).
      assert (FA : frame_add (tb_member t1) (rb x) (mkFrame k (BStruct acc)) = Ok (mkFrame k (BStruct (map_set key (rb x) acc)))).
      { unfold frame_add. cbn [f_body f_key t1 tb_member]. unfold struct_append.
        replace (255 <? blen key) with false by (symmetry; apply Z.ltb_ge; lia). reflexivity. }
      destruct (HB t1 (mkFrame k (BStruct acc)) r _ ST FA) as [m E].
      rewrite replay_app, E.
      destruct (IH (with_stack (mkFrame k (BStruct (map_set key (rb x) acc)) :: r) m t1) k _ r F' eq_refl) as [m2 E2].
      exists m2. rewrite E2. reflexivity.
  Qed.

  Theorem dup_struct : forall ver n l, Forall (fun kv => name_ok (fst kv) /\ wf ver (snd kv)) l ->
    exists t m, replay tstep tb_init (EOpenStruct n :: flat_map (fun kv => EMember (fst kv) :: events (snd kv)) l ++ [ECloseStruct])
        = (t, None)
      /\ tb_data t = Ok (VStruct m) /\ increasing m
      /\ forall k, map_get k m = last_value k (map (fun kv => (fst kv, rb (snd kv))) l).
  Proof.
    intros ver n l F.
    assert (FB : Forall (fun kv => blen (fst kv) <= 255 /\ builds val (snd kv)) l).
    { eapply Forall_impl; [|exact F]. intros kv [A B]. split; [unfold name_ok in A; lia|]. apply (builds_all val ver). exact B. }
    destruct (dup_members l (mkTB [mkFrame [] (BStruct [])] RBottom false [] [] (-500) [] []) [] [] [] FB eq_refl) as [mm E].
    do 2 eexists. split.
    { cbn [replay]. change (tb_step val tb_init (EOpenStruct n)) with (mkTB [mkFrame [] (BStruct [])] RBottom false [] [] (-500) [] [], @None fail).
      cbv iota beta. rewrite replay_app.
      change (fun kv : bytes * value => EMember (fst kv) :: events (snd kv)) with member_events.
      rewrite E. cbn [replay tb_step]. unfold tb_close. cbn [with_stack tb_stack]. reflexivity. }
    split; [reflexivity|]. split; [apply set_all_increasing; exact I|].
    intro k. rewrite set_all_get by exact I. destruct (last_value _ _); reflexivity.
  Qed.
End Dup.
