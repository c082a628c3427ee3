(** Proofs about feeding objects in memory. *)
From Coq Require Import Lia Relations.
From Verif Require Import Base Value M_Marshal M_Python M_PyCycle S_PyCycle L_Base L_Python.

Section Proofs.
  Variable host : datetime -> datetime.
  Variable heap : Z -> node.
  Notation feed_obj := (feed_obj host heap).
  Notation holds := (holds heap).

  (** More stack does no harm. *)
  Lemma seq_more : forall (f g : Z -> item_result) l r, (forall i r, f i = Some r -> g i = Some r) -> obj_seq f l = Some r -> obj_seq g l = Some r.
  Proof.
    intros f g l r H. revert r. induction l as [|x l IH]; intros r E; [exact E|]. cbn [obj_seq] in *. fold (obj_seq f) in *. fold (obj_seq g) in *.
    destruct (f x) as [(c & [e|])|] eqn:F; [|  |discriminate]; rewrite (H _ _ F); [exact E|].
    destruct (obj_seq f l) as [(c' & e)|] eqn:G; [|discriminate]. rewrite (IH _ eq_refl). exact E.
  Qed.
  Lemma items_more : forall (f g : Z -> item_result) l r, (forall i r, f i = Some r -> g i = Some r) -> obj_items f l = Some r -> obj_items g l = Some r.
  Proof.
    intros f g l r H. revert r. induction l as [|(k & x) l IH]; intros r E; [exact E|]. cbn [obj_items] in *. fold (obj_items f) in *. fold (obj_items g) in *.
    destruct k; try exact E. destruct (py_encode s); [|exact E].
    destruct (f x) as [(c & [e|])|] eqn:F; [|  |discriminate]; rewrite (H _ _ F); [exact E|].
    destruct (obj_items f l) as [(c' & e)|] eqn:G; [|discriminate]. rewrite (IH _ eq_refl). exact E.
  Qed.
  Lemma feed_more : forall k i r, feed_obj k i = Some r -> forall k', (k <= k')%nat -> feed_obj k' i = Some r.
  Proof.
    induction k as [|k IH]; intros i r E k' L; [discriminate|]. destruct k' as [|k']; [lia|]. cbn [M_PyCycle.feed_obj] in *.
    assert (M: forall i r, feed_obj k i = Some r -> feed_obj k' i = Some r) by (intros; apply IH; [assumption|lia]).
    destruct (heap i) as [p|t ids|ks]; [exact E| |].
    - destruct (obj_seq (feed_obj k) ids) as [(c & e)|] eqn:S; [|discriminate]. rewrite (seq_more _ _ _ _ M S). exact E.
    - destruct (obj_items (feed_obj k) ks) as [(c & e)|] eqn:S; [|discriminate]. rewrite (items_more _ _ _ _ M S). exact E.
  Qed.

  (** A finite tree is fed as such. *)
  Fixpoint all (l : list py) (ids : list Z) : Prop := match l, ids with [], [] => True | x :: l, j :: ids => holds x j /\ all l ids | _, _ => False end.
  Fixpoint every (m : list (py * py)) (ks : list (py * Z)) : Prop :=
    match m, ks with [], [] => True | (k, x) :: m, (k', j) :: ks => k = k' /\ holds x j /\ every m ks | _, _ => False end.

  Lemma feed_seq_tree : forall k l ids, all l ids ->
    Forall (fun p => forall i, holds p i -> forall k, (depth p <= k)%nat -> feed_obj k i = Some (feed_py host p)) l -> (list_max (map depth l) <= k)%nat ->
    obj_seq (feed_obj k) ids = Some (feed_seq (feed_py host) l) /\ zlen ids = zlen l.
  Proof.
    intros k. induction l as [|x l IH]; intros [|j ids] A F D; cbn [all] in A; try contradiction; [split; reflexivity|].
    destruct A as (A & As). inversion F as [|? ? F1 F2]; subst. cbn [map list_max fold_right] in D. fold (list_max (map depth l)) in D.
    destruct (IH ids As F2 ltac:(unfold list_max in *; lia)) as (E & Z). split; [|rewrite !zlen_cons; lia].
    cbn [obj_seq feed_seq]. fold (obj_seq (feed_obj k)). fold (feed_seq (feed_py host)). rewrite (F1 j A k) by (unfold list_max in *; lia). rewrite E.
    destruct (feed_py host x) as (c & [e|]); [reflexivity|]. destruct (feed_seq (feed_py host) l). reflexivity.
  Qed.
  Lemma feed_items_tree : forall k m ks, every m ks ->
    Forall (fun kp => forall i, holds (snd kp) i -> forall k, (depth (snd kp) <= k)%nat -> feed_obj k i = Some (feed_py host (snd kp))) m ->
    (list_max (map (fun kv => depth (snd kv)) m) <= k)%nat ->
    obj_items (feed_obj k) ks = Some (feed_items (feed_py host) m) /\ zlen ks = zlen m.
  Proof.
    intros k. induction m as [|(n & x) m IH]; intros [|(n' & j) ks] A F D; cbn [every] in A; try contradiction; [split; reflexivity|].
    destruct A as (<- & A & As). inversion F as [|? ? F1 F2]; subst. cbn [map list_max fold_right snd] in *.
    destruct (IH ks As F2 ltac:(unfold list_max in *; lia)) as (E & Z). split; [|rewrite !zlen_cons; lia].
    cbn [obj_items feed_items]. fold (obj_items (feed_obj k)). fold (feed_items (feed_py host)). destruct n; try reflexivity. destruct (py_encode s); [|reflexivity].
    rewrite (F1 j A k) by lia. rewrite E.
    destruct (feed_py host x) as (c & [e|]); [reflexivity|]. destruct (feed_items (feed_py host) m). reflexivity.
  Qed.
  Lemma feed_tree : forall p i, holds p i -> forall k, (depth p <= k)%nat -> feed_obj k i = Some (feed_py host p).
  Proof.
    induction p as [|b|b|z|d|s|s|d|d|l IH|l IH|m IH|c m|] using py_nested_ind; intros i H k D; destruct k as [|k]; try (cbn in D; lia);
      cbn [M_PyCycle.feed_obj]; cbn [S_PyCycle.holds] in H; try (rewrite H; reflexivity).
    - destruct H as (ids & -> & A). cbn [depth] in D. destruct (feed_seq_tree k l ids A IH ltac:(lia)) as (E & Z). rewrite E, Z. cbn [feed_py]. destruct (feed_seq (feed_py host) l). reflexivity.
    - destruct H as (ids & -> & A). cbn [depth] in D. destruct (feed_seq_tree k l ids A IH ltac:(lia)) as (E & Z). rewrite E, Z. cbn [feed_py]. destruct (feed_seq (feed_py host) l). reflexivity.
    - destruct H as (ks & -> & A). cbn [depth] in D. destruct (feed_items_tree k m ks A IH ltac:(lia)) as (E & Z). rewrite E, Z. cbn [feed_py]. destruct (feed_items (feed_py host) m). reflexivity.
  Qed.

  (** What is written is a finite tree. *)
  Hypothesis WF : forall i p, heap i = N_plain p -> plain p.
  Lemma seq_built : forall k, (forall i c, feed_obj k i = Some (c, None) -> exists p, holds p i) -> forall ids c, obj_seq (feed_obj k) ids = Some (c, None) -> exists l, all l ids.
  Proof.
    intros k IHk. induction ids as [|x ids IH]; intros c E; [exists []; exact I|]. cbn [obj_seq] in E. fold (obj_seq (feed_obj k)) in E.
    destruct (feed_obj k x) as [(c1 & [e|])|] eqn:F; try discriminate. destruct (obj_seq (feed_obj k) ids) as [(c2 & e)|] eqn:G; [|discriminate].
    inversion E; subst. destruct (IHk _ _ F) as (p & H). destruct (IH _ eq_refl) as (l & A). exists (p :: l). split; assumption.
  Qed.
  Lemma items_built : forall k, (forall i c, feed_obj k i = Some (c, None) -> exists p, holds p i) -> forall ks c, obj_items (feed_obj k) ks = Some (c, None) -> exists m, every m ks.
  Proof.
    intros k IHk. induction ks as [|(n & x) ks IH]; intros c E; [exists []; exact I|]. cbn [obj_items] in E. fold (obj_items (feed_obj k)) in E.
    destruct n; try discriminate. destruct (py_encode s); [|discriminate].
    destruct (feed_obj k x) as [(c1 & [e|])|] eqn:F; try discriminate. destruct (obj_items (feed_obj k) ks) as [(c2 & e)|] eqn:G; [|discriminate].
    inversion E; subst. destruct (IHk _ _ F) as (p & H). destruct (IH _ eq_refl) as (m & A). exists ((PyStr s, p) :: m). split; [reflexivity|]. split; assumption.
  Qed.
  Lemma feed_built : forall k i c, feed_obj k i = Some (c, None) -> exists p, holds p i.
  Proof.
    induction k as [|k IH]; intros i c E; [discriminate|]. cbn [M_PyCycle.feed_obj] in E. destruct (heap i) as [p|t ids|ks] eqn:H.
    - exists p. pose proof (WF _ _ H) as P. destruct p; cbn in P |- *; try contradiction; exact H.
    - destruct (obj_seq (feed_obj k) ids) as [(c1 & e)|] eqn:S; [|discriminate]. inversion E; subst. destruct (seq_built k IH _ _ S) as (l & A).
      destruct t; [exists (PyTuple l)|exists (PyList l)]; exists ids; split; assumption.
    - destruct (obj_items (feed_obj k) ks) as [(c1 & e)|] eqn:S; [|discriminate]. inversion E; subst. destruct (items_built k IH _ _ S) as (m & A).
      exists (PyDict m), ks. split; assumption.
  Qed.

  (** No tree contains itself. *)
  Lemma all_in : forall l ids j, all l ids -> In j ids -> exists q, holds q j /\ (depth q <= list_max (map depth l))%nat.
  Proof.
    induction l as [|x l IH]; intros [|i ids] j A I; cbn [all] in A; try contradiction. destruct A as (A & As). cbn [map list_max fold_right].
    destruct I as [<-|I]; [exists x; split; [exact A|lia]|]. destruct (IH ids j As I) as (q & H & D). exists q. split; [exact H|]. unfold list_max in D. lia.
  Qed.
  Lemma every_in : forall m ks j, every m ks -> In j (map snd ks) -> exists q, holds q j /\ (depth q <= list_max (map (fun kv => depth (snd kv)) m))%nat.
  Proof.
    induction m as [|(n & x) m IH]; intros [|(n' & i) ks] j A I; cbn [every] in A; try contradiction. destruct A as (_ & A & As). cbn [map list_max fold_right snd] in *.
    destruct I as [<-|I]; [exists x; split; [exact A|lia]|]. destruct (IH ks j As I) as (q & H & D). exists q. split; [exact H|]. unfold list_max in D. lia.
  Qed.
  Lemma part : forall p i j, holds p i -> is_in heap j i -> exists q, holds q j /\ (depth q < depth p)%nat.
  Proof.
    intros p i j H I. unfold is_in in I. destruct p; cbn [S_PyCycle.holds] in H; try (rewrite H in I; destruct I);
      destruct H as (ids & E & A); rewrite E in I; cbn [depth].
    all: first [destruct (all_in _ ids j A I) as (q & Hq & D)|destruct (every_in _ ids j A I) as (q & Hq & D)]; exists q; split; try assumption; lia.
  Qed.
  Lemma parts : forall j i, clos_trans Z (is_in heap) j i -> forall p, holds p i -> exists q, holds q j /\ (depth q < depth p)%nat.
  Proof.
    intros j i C. induction C as [x y I|x y z C1 IH1 C2 IH2]; intros p H; [apply (part p y x H I)|].
    destruct (IH2 p H) as (q & Hq & D). destruct (IH1 q Hq) as (r & Hr & D'). exists r. split; [exact Hr|lia].
  Qed.
  Lemma no_tree : forall i, contains_itself heap i -> forall n p, (depth p <= n)%nat -> ~ holds p i.
  Proof.
    intros i C. induction n as [|n IH]; intros p D H; [destruct p; cbn in D; lia|]. destruct (parts i i C p H) as (q & Hq & L). apply (IH q); [lia|exact Hq].
  Qed.
  Lemma feed_written : forall k i c, feed_obj k i = Some (c, None) -> exists p, holds p i /\ feed_py host p = (c, None).
  Proof.
    intros k i c E. destruct (feed_built _ _ _ E) as (p & H). exists p. split; [exact H|].
    pose proof (feed_more _ _ _ E (k + depth p)%nat ltac:(lia)) as E1. rewrite (feed_tree p i H) in E1 by lia. injection E1; auto.
  Qed.
  Lemma cycle_not_written : forall i, contains_itself heap i -> forall k c, feed_obj k i <> Some (c, None).
  Proof. intros i C k c E. destruct (feed_built _ _ _ E) as (p & H). exact (no_tree i C (depth p) p (le_n _) H). Qed.
  Lemma cycle_ends : forall i t before after, heap i = N_list t (before ++ i :: after) ->
    Forall (fun j => exists p, holds p j /\ snd (feed_py host p) = None) before -> forall k, feed_obj k i = None.
  Proof.
    clear WF. intros i t before after E F. induction k as [|k IH]; [reflexivity|]. cbn [M_PyCycle.feed_obj]. rewrite E.
    enough (X: obj_seq (feed_obj k) (before ++ i :: after) = None) by (rewrite X; reflexivity). clear E.
    induction F as [|j before (p & H & N) F IHF]; cbn [app obj_seq]; fold (obj_seq (feed_obj k)); [rewrite IH; reflexivity|].
    destruct (feed_obj k j) as [(c & e)|] eqn:X; [|reflexivity].
    pose proof (feed_more _ _ _ X (k + depth p)%nat ltac:(lia)) as X1. rewrite (feed_tree p j H) in X1 by lia. injection X1 as X1. rewrite X1 in N. cbn in N. subst.
    rewrite IHF. reflexivity.
  Qed.

  (** Without anything to refuse there is no exception. *)
  Hypothesis PLAINS : forall i p, heap i = N_plain p -> snd (feed_py host p) = None.
  Hypothesis KEYS : forall i ks k j, heap i = N_dict ks -> In (k, j) ks -> exists s, k = PyStr s /\ py_encode s <> None.
  Lemma seq_calm : forall (f : Z -> item_result) l c e, (forall i c e, f i <> Some (c, Some e)) -> obj_seq f l <> Some (c, Some e).
  Proof.
    intros f l c e F. revert c e. induction l as [|x l IH]; intros c e; [discriminate|]. cbn [obj_seq]. fold (obj_seq f).
    destruct (f x) as [(c1 & [e1|])|] eqn:X; [destruct (F _ _ _ X)| |discriminate].
    destruct (obj_seq f l) as [(c2 & e2)|] eqn:G; [|discriminate]. intro E. inversion E; subst. exact (IH _ _ eq_refl).
  Qed.
  Lemma items_calm : forall (f : Z -> item_result) l c e, (forall i c e, f i <> Some (c, Some e)) ->
    (forall k j, In (k, j) l -> exists s, k = PyStr s /\ py_encode s <> None) -> obj_items f l <> Some (c, Some e).
  Proof.
    intros f l c e F. revert c e. induction l as [|(n & x) l IH]; intros c e K; [discriminate|]. cbn [obj_items]. fold (obj_items f).
    destruct (K n x (or_introl eq_refl)) as (s & -> & N). destruct (py_encode s); [|destruct (N eq_refl)].
    destruct (f x) as [(c1 & [e1|])|] eqn:X; [destruct (F _ _ _ X)| |discriminate].
    destruct (obj_items f l) as [(c2 & e2)|] eqn:G; [|discriminate]. intro E. inversion E; subst.
    exact (IH c2 e (fun k j I => K k j (or_intror I)) eq_refl).
  Qed.
  Lemma calm : forall k i c e, feed_obj k i <> Some (c, Some e).
  Proof.
    induction k as [|k IH]; intros i c e; [discriminate|]. cbn [M_PyCycle.feed_obj]. destruct (heap i) as [p|t ids|ks] eqn:H.
    - intro E. pose proof (PLAINS _ _ H) as P. destruct (feed_py host p) as (c1 & e1). cbn in P. inversion E; subst. discriminate.
    - destruct (obj_seq (feed_obj k) ids) as [(c1 & e1)|] eqn:S; [|discriminate]. intro E. inversion E; subst. exact (seq_calm _ _ _ _ IH S).
    - destruct (obj_items (feed_obj k) ks) as [(c1 & e1)|] eqn:S; [|discriminate]. intro E. inversion E; subst.
      exact (items_calm _ _ _ _ IH (fun k0 j I => KEYS i ks k0 j H I) S).
  Qed.
  Lemma cycle_exhausts : forall i, contains_itself heap i -> forall k, feed_obj k i = None.
  Proof.
    intros i C k. destruct (feed_obj k i) as [(c & [e|])|] eqn:E; [destruct (calm _ _ _ _ E)|destruct (cycle_not_written _ C _ _ E)|reflexivity].
  Qed.
End Proofs.
