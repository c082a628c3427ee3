(** Proofs about feeding values in memory. *)
From Coq Require Import Lia Relations Wellfounded.
From Verif Require Import Base Value M_Marshal M_Pool S_Pool L_Pool M_PoolFeed S_PoolFeed.

Definition fed (s : pools) (v : value) (k : nat) : Prop := forall r P Q, tree (st_heap s) (st_buffers s) P Q v r -> feed_ref k s r = Some (Ok (feed v)).

Lemma f2_zlen : forall A B (R : A -> B -> Prop) l l', Forall2 R l l' -> zlen l = zlen l'.
Proof. intros A B R l l' F. induction F; [reflexivity|]. unfold zlen in *. cbn [length]. lia. Qed.

Definition feeds (l : list value) : list mcall := (fix go (l : list value) : list mcall := match l with [] => [] | x :: r => feed x ++ go r end) l.
Definition feeds_named (m : list (bytes * value)) : list mcall :=
  (fix go (l : list (bytes * value)) : list mcall := match l with [] => [] | (k, x) :: r => PMember k :: feed x ++ go r end) m.

Lemma items_fed : forall s k P Q l ts, Forall (fun v => fed s v k) l -> Forall2 (tree (st_heap s) (st_buffers s) P Q) l ts ->
  ref_items (feed_ref k s) ts = Some (Ok (feeds l)).
Proof.
  intros s k P Q l ts F A. revert F. induction A as [|x t l ts T A IH]; intros F; [reflexivity|]. inversion F as [|? ? F1 F2]; subst.
  cbn [ref_items feeds]. fold (ref_items (feed_ref k s)). fold (feeds l). rewrite (F1 t P Q T), (IH F2). reflexivity.
Qed.
Lemma members_fed : forall s k P Q m ts, Forall (fun kv => fed s (snd kv) k) m ->
  Forall2 (fun kv kt => fst kv = fst kt /\ tree (st_heap s) (st_buffers s) P Q (snd kv) (snd kt)) m ts ->
  ref_members (feed_ref k s) ts = Some (Ok (feeds_named m)).
Proof.
  intros s k P Q m ts F A. revert F. induction A as [|(n & x) (n' & t) m ts (E & T) A IH]; intros F; [reflexivity|]. inversion F as [|? ? F1 F2]; subst.
  cbn [fst snd] in *. subst n'. cbn [ref_members feeds_named]. fold (ref_members (feed_ref k s)). fold (feeds_named m).
  rewrite (F1 t P Q T), (IH F2). reflexivity.
Qed.

Lemma feed_reads : forall s v, exists d, forall k, (d <= k)%nat -> fed s v k.
Proof.
  intros s v. induction v using value_nested_ind.
  1-2,4-5,7-9: exists 1%nat; intros [|k] L; [lia|]; intros r P Q T; cbn [tree] in T; cbn [feed_ref]; destruct T as (? & -> & _ & ->); reflexivity.
  - exists 1%nat. intros [|k] L; [lia|]. intros r P Q T. cbn [tree] in T. subst. reflexivity.
  - exists 1%nat. intros [|k] L; [lia|]. intros r P Q T. cbn [tree] in T. destruct T as (n & b & -> & _ & C & _ & B). cbn [feed_ref]. rewrite C, B. reflexivity.
  - destruct (forall_max _ (fun kv k => fed s (snd kv) k) _ H) as (d & D). exists (S d). intros [|k] L; [lia|]. specialize (D k ltac:(lia)). intros r P Q T.
    apply tree_struct in T. destruct T as (n & ts & -> & _ & C & A). cbn [feed_ref]. rewrite C, (members_fed s k P Q m ts D A), <- (f2_zlen _ _ _ _ _ A). reflexivity.
  - destruct (forall_max _ (fun v k => fed s v k) _ H) as (d & D). exists (S d). intros [|k] L; [lia|]. specialize (D k ltac:(lia)). intros r P Q T.
    apply tree_array in T. destruct T as (n & ts & -> & _ & C & A). cbn [feed_ref]. rewrite C, (items_fed s k P Q l ts D A), <- (f2_zlen _ _ _ _ _ A). reflexivity.
  - destruct IHv as (d & D). exists (S d). intros [|k] L; [lia|]. intros r P Q T. cbn [tree] in T. destruct T as (n & t & -> & _ & C & T). cbn [feed_ref feed]. rewrite C.
    apply (D k ltac:(lia) t P Q T).
Qed.

(** What is fed is a tree. *)
Notation any := (fun _ : nat => True).
Notation tr s := (tree (st_heap s) (st_buffers s) any any).
Lemma items_built : forall s k, (forall r c, feed_ref k s r = Some (Ok c) -> exists v, tr s v r /\ feed v = c) -> forall ts c,
  ref_items (feed_ref k s) ts = Some (Ok c) -> exists l, Forall2 (tr s) l ts /\ feeds l = c.
Proof.
  intros s k H. induction ts as [|t ts IH]; intros c E; [inversion E; exists []; split; constructor|].
  cbn [ref_items] in E. fold (ref_items (feed_ref k s)) in E. destruct (feed_ref k s t) as [[c1| |]|] eqn:F; try discriminate.
  destruct (ref_items (feed_ref k s) ts) as [[c2| |]|] eqn:G; try discriminate. inversion E; subst.
  destruct (H _ _ F) as (v & T & <-). destruct (IH _ eq_refl) as (l & A & <-). exists (v :: l). split; [constructor; assumption|reflexivity].
Qed.
Lemma members_built : forall s k, (forall r c, feed_ref k s r = Some (Ok c) -> exists v, tr s v r /\ feed v = c) -> forall ts c,
  ref_members (feed_ref k s) ts = Some (Ok c) -> exists m, Forall2 (fun kv kt => fst kv = fst kt /\ tr s (snd kv) (snd kt)) m ts /\ feeds_named m = c.
Proof.
  intros s k H. induction ts as [|(n & t) ts IH]; intros c E; [inversion E; exists []; split; constructor|].
  cbn [ref_members] in E. fold (ref_members (feed_ref k s)) in E. destruct (feed_ref k s t) as [[c1| |]|] eqn:F; try discriminate.
  destruct (ref_members (feed_ref k s) ts) as [[c2| |]|] eqn:G; try discriminate. inversion E; subst.
  destruct (H _ _ F) as (v & T & <-). destruct (IH _ eq_refl) as (m & A & <-). exists ((n, v) :: m). split; [constructor; [split; [reflexivity|exact T]|exact A]|reflexivity].
Qed.
Lemma feed_built : forall s, (forall n v, cell (st_heap s) n = Some (NLeaf v) -> scalar v) ->
  forall k r c, feed_ref k s r = Some (Ok c) -> exists v, tr s v r /\ feed v = c.
Proof.
  intros s W. induction k as [|k IH]; intros r c E; [discriminate|]. cbn [feed_ref] in E. destruct r as [|n]; [inversion E; exists VNull; split; reflexivity|].
  destruct (cell (st_heap s) n) as [[v|b|l|m|x]|] eqn:C; [| | | | |discriminate].
  - pose proof (W _ _ C) as S. inversion E; subst. exists v. split; [|reflexivity]. destruct v; try destruct S; exists n; auto.
  - destruct (nth_error (st_buffers s) b) as [[t|]|] eqn:B; try discriminate. inversion E; subst. exists (VStringView t). split; [|reflexivity]. exists n, b. auto.
  - destruct (ref_items (feed_ref k s) l) as [[c1| |]|] eqn:G; try discriminate. inversion E; subst. destruct (items_built s k IH _ _ G) as (vs & A & <-).
    exists (VArray vs). split; [apply tree_array; exists n, l; auto|]. cbn [feed]. rewrite (f2_zlen _ _ _ _ _ A). reflexivity.
  - destruct (ref_members (feed_ref k s) m) as [[c1| |]|] eqn:G; try discriminate. inversion E; subst. destruct (members_built s k IH _ _ G) as (vs & A & <-).
    exists (VStruct vs). split; [apply tree_struct; exists n, m; auto|]. cbn [feed]. rewrite (f2_zlen _ _ _ _ _ A). reflexivity.
  - destruct (IH _ _ E) as (v & T & <-). exists (VSecret v). split; [exists n, x; auto|reflexivity].
Qed.

(** An item of itself. *)
Lemma items_more : forall f g l r, (forall x r, f x = Some r -> g x = Some r) -> ref_items f l = Some r -> ref_items g l = Some r.
Proof.
  intros f g l r H. revert r. induction l as [|x l IH]; intros r E; [exact E|]. cbn [ref_items] in *. fold (ref_items f) in *. fold (ref_items g) in *.
  destruct (f x) as [[c| |]|] eqn:F; [|rewrite (H _ _ F); exact E|rewrite (H _ _ F); exact E|discriminate]. rewrite (H _ _ F).
  destruct (ref_items f l) as [q|] eqn:G; [|discriminate]. rewrite (IH _ eq_refl). exact E.
Qed.
Lemma members_more : forall f g l r, (forall x r, f x = Some r -> g x = Some r) -> ref_members f l = Some r -> ref_members g l = Some r.
Proof.
  intros f g l r H. revert r. induction l as [|(n & x) l IH]; intros r E; [exact E|]. cbn [ref_members] in *. fold (ref_members f) in *. fold (ref_members g) in *.
  destruct (f x) as [[c| |]|] eqn:F; [|rewrite (H _ _ F); exact E|rewrite (H _ _ F); exact E|discriminate]. rewrite (H _ _ F).
  destruct (ref_members f l) as [q|] eqn:G; [|discriminate]. rewrite (IH _ eq_refl). exact E.
Qed.
Lemma feed_more : forall s k r x, feed_ref k s r = Some x -> forall k', (k <= k')%nat -> feed_ref k' s r = Some x.
Proof.
  intros s. induction k as [|k IH]; intros r x E k' L; [discriminate|]. destruct k' as [|k']; [lia|]. cbn [feed_ref] in *. destruct r as [|n]; [exact E|].
  assert (M: forall y q, feed_ref k s y = Some q -> feed_ref k' s y = Some q) by (intros; apply IH; [assumption|lia]).
  destruct (cell (st_heap s) n) as [[v|b|l|m|y]|]; try exact E; [| |apply M; exact E].
  - destruct (ref_items (feed_ref k s) l) as [q|] eqn:G; [|discriminate]. rewrite (items_more _ _ _ _ M G). exact E.
  - destruct (ref_members (feed_ref k s) m) as [q|] eqn:G; [|discriminate]. rewrite (members_more _ _ _ _ M G). exact E.
Qed.
Lemma cycle_ends : forall s n before after, cell (st_heap s) n = Some (NArray (before ++ RObj n :: after)) ->
  Forall (fun r => exists v, tr s v r) before -> forall k, feed_ref k s (RObj n) = None.
Proof.
  intros s n before after C F. induction k as [|k IH]; [reflexivity|]. cbn [feed_ref]. rewrite C.
  enough (X: ref_items (feed_ref k s) (before ++ RObj n :: after) = None) by (rewrite X; reflexivity). clear C.
  induction F as [|r before (v & T) F IHF]; cbn [app ref_items]; fold (ref_items (feed_ref k s)); [rewrite IH; reflexivity|].
  destruct (feed_ref k s r) as [q|] eqn:X; [|reflexivity]. destruct (feed_reads s v) as (d & D).
  pose proof (feed_more _ _ _ _ X (k + d)%nat ltac:(lia)) as X1. rewrite (D (k + d)%nat ltac:(lia) r any any T) in X1. inversion X1; subst. rewrite IHF. reflexivity.
Qed.

(** No tree contains itself. *)
Lemma f2_in_r : forall A B (R : A -> B -> Prop) l ts t, Forall2 R l ts -> In t ts -> exists x, In x l /\ R x t.
Proof. intros A B R l ts t F. induction F as [|x y l ts Rxy F IH]; intros I; [destruct I|]. destruct I as [<-|I]; [exists x; split; [left; reflexivity|exact Rxy]|]. destruct (IH I) as (z & Z & W). exists z. split; [right; exact Z|exact W]. Qed.
Lemma tree_acc : forall s v r, tr s v r -> Acc (directly_in s) r.
Proof.
  intros s v. induction v using value_nested_ind; intros r T.
  1-2,4-5,7-9: cbn [tree] in T; destruct T as (? & -> & _ & C); constructor; intros y Y; cbn in Y; rewrite C in Y; destruct Y.
  - cbn in T. subst r. constructor. intros y [].
  - cbn [tree] in T. destruct T as (? & ? & -> & _ & C & _). constructor; intros y Y; cbn in Y; rewrite C in Y; destruct Y.
  - apply tree_struct in T. destruct T as (n & ts & -> & _ & C & A). constructor. intros y Y. cbn in Y. rewrite C in Y. apply in_map_iff in Y as ((k & t) & <- & Y).
    destruct (f2_in_r _ _ _ _ _ _ A Y) as ((k' & x) & X & (_ & T)). rewrite Forall_forall in H. exact (H _ X _ T).
  - apply tree_array in T. destruct T as (n & ts & -> & _ & C & A). constructor. intros y Y. cbn in Y. rewrite C in Y.
    destruct (f2_in_r _ _ _ _ _ _ A Y) as (x & X & T). rewrite Forall_forall in H. exact (H _ X _ T).
  - cbn [tree] in T. destruct T as (n & t & -> & _ & C & T). constructor. intros y Y. cbn in Y. rewrite C in Y. subst y. exact (IHv _ T).
Qed.
Lemma acc_not_self : forall A (R : A -> A -> Prop) x, Acc R x -> ~ R x x.
Proof. intros A R x H. induction H as [x _ IH]. intros X. exact (IH x X X). Qed.
Lemma itself_no_tree : forall s r v, value_in_itself s r -> ~ tr s v r.
Proof. intros s r v C T. exact (acc_not_self _ _ r (Acc_clos_trans _ _ _ (tree_acc s v r T)) C). Qed.
