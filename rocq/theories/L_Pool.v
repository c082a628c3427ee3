(** Lemmas about pools. *)
From Coq Require Import Lia Permutation.
From Verif Require Import Base Value M_TreeBuilder M_Pool S_Pool S_Value L_Base L_TreeBuilder L_Dup P_Values.
Open Scope nat_scope.

Notation occ := (count_occ Nat.eq_dec).

Lemma nodup_occ : forall l : list nat, NoDup l <-> forall n, occ l n <= 1.
Proof. intros l. apply (NoDup_count_occ Nat.eq_dec). Qed.

Lemma set_nth_length : forall A n (x : A) l, length (set_nth n x l) = length l.
Proof. induction n; destruct l; cbn; auto. Qed.
Lemma set_nth_same : forall A n (x : A) l, n < length l -> nth_error (set_nth n x l) n = Some x.
Proof. induction n; destruct l; cbn; intros; try lia; auto. apply IHn. lia. Qed.
Lemma set_nth_other : forall A n (x : A) l k, k <> n -> nth_error (set_nth n x l) k = nth_error l k.
Proof. induction n; destruct l, k; cbn; intros; try congruence; auto. Qed.
Lemma set_nth_at : forall A (l : list A) y x r, set_nth (length l) x (l ++ y :: r) = l ++ x :: r.
Proof. induction l; cbn; intros; [reflexivity|]. f_equal. apply IHl. Qed.

(** ** Deleting *)
Lemma cell_lt : forall h n x, cell h n = Some x -> n < length h.
Proof. unfold cell. intros h n x H. apply nth_error_Some. destruct (nth_error h n); congruence. Qed.
Lemma cell_set_none : forall h n k, cell (set_nth n None h) k = if Nat.eq_dec k n then None else cell h k.
Proof.
  intros h n k. unfold cell. destruct (Nat.eq_dec k n) as [->|E].
  - destruct (lt_dec n (length h)) as [L|L]; [rewrite set_nth_same by assumption; reflexivity|].
    assert (X : nth_error (set_nth n (@None node) h) n = None) by (apply nth_error_None; rewrite set_nth_length; lia). rewrite X. reflexivity.
  - rewrite set_nth_other by assumption. reflexivity.
Qed.
Lemma cell_set_some : forall h n x k, n < length h -> cell (set_nth n (Some x) h) k = if Nat.eq_dec k n then Some x else cell h k.
Proof.
  intros h n x k L. unfold cell. destruct (Nat.eq_dec k n) as [->|E]; [rewrite set_nth_same by assumption; reflexivity|].
  rewrite set_nth_other by assumption. reflexivity.
Qed.
Lemma cell_app : forall h t n x, cell h n = Some x -> cell (h ++ t) n = Some x.
Proof. intros h t n x H. pose proof (cell_lt _ _ _ H). unfold cell in *. rewrite nth_error_app1 by assumption. assumption. Qed.
Lemma cell_app_new : forall h x t, cell (h ++ Some x :: t) (length h) = Some x.
Proof. intros. unfold cell. rewrite nth_error_app2 by lia. rewrite Nat.sub_diag. reflexivity. Qed.

Lemma delete_all_ok : forall l h, NoDup l -> (forall n, In n l -> cell h n <> None) ->
  exists h', delete_all h l = Ok h' /\ length h' = length h /\
    (forall k, cell h' k = if in_dec Nat.eq_dec k l then None else cell h k).
Proof.
  induction l as [|n l IH]; intros h N A.
  - exists h. split; [reflexivity|]. split; [reflexivity|]. intros k. destruct (in_dec Nat.eq_dec k []); [contradiction|reflexivity].
  - inversion N as [|? ? N1 N2]; subst. cbn [delete_all]. destruct (cell h n) eqn:E; [|exfalso; apply (A n); [left; reflexivity|assumption]].
    destruct (IH (set_nth n None h) N2) as (h' & D & L & C).
    { intros k K. rewrite cell_set_none. destruct (Nat.eq_dec k n) as [->|]; [contradiction|]. apply A. right. assumption. }
    exists h'. split; [exact D|]. split; [rewrite L; apply set_nth_length|]. intros k. rewrite C, cell_set_none.
    destruct (in_dec Nat.eq_dec k l) as [I|I]; destruct (in_dec Nat.eq_dec k (n :: l)) as [J|J]; try reflexivity.
    + exfalso. apply J. right. assumption.
    + destruct J as [->|J]; [|contradiction]. destruct (Nat.eq_dec k k); congruence.
    + destruct (Nat.eq_dec k n) as [->|]; [|reflexivity]. exfalso. apply J. left. reflexivity.
Qed.

(** ** What the pools own *)
Definition content (o : option (list nat)) : list nat := match o with Some l => l | None => [] end.
Definition owned (ps : list (option (list nat))) : list nat := concat (map content ps).

Lemma owned_app : forall a b, owned (a ++ b) = owned a ++ owned b.
Proof. intros. unfold owned. rewrite map_app, concat_app. reflexivity. Qed.
Lemma occ_app : forall a b n, occ (a ++ b) n = occ a n + occ b n.
Proof. intros. apply count_occ_app. Qed.

Lemma owned_set : forall ps p own x n, nth_error ps p = Some (Some own) ->
  occ (owned (set_nth p x ps)) n + occ own n = occ (owned ps) n + occ (content x) n.
Proof.
  unfold owned. induction ps as [|o ps IH]; intros p own x n H; [destruct p; discriminate|]. destruct p as [|p]; cbn [nth_error] in H.
  - injection H as ->. cbn [set_nth map concat content]. rewrite !occ_app. lia.
  - cbn [set_nth map concat]. rewrite !occ_app. specialize (IH p own x n H). lia.
Qed.
Lemma storage_nth : forall s p own, storage s p = Some own <-> nth_error (st_pools s) p = Some (Some own).
Proof. intros s p own. unfold storage. destruct (nth_error (st_pools s) p) as [[l|]|]; split; congruence. Qed.
Lemma nth_lt : forall A (l : list A) n x, nth_error l n = Some x -> n < length l.
Proof. intros A l n x H. apply nth_error_Some. congruence. Qed.
Lemma occ_own : forall ps p own n, nth_error ps p = Some (Some own) -> occ own n <= occ (owned ps) n.
Proof. intros ps p own n H. pose proof (owned_set ps p own (Some []) n H) as E. cbn [content count_occ] in E. lia. Qed.

(** The invariant. *)
Definition structs_sorted (h : heap) : Prop := forall n m, cell h n = Some (NStruct m) -> increasing m.
Record inv (s : pools) : Prop := mkInv {
  inv_once : forall n, occ (owned (st_pools s)) n + occ (st_released s) n <= 1;
  inv_range : forall n, In n (owned (st_pools s)) \/ In n (st_released s) -> n < length (st_heap s);
  inv_alive : forall n, n < length (st_heap s) -> (cell (st_heap s) n = None <-> In n (st_released s));
  inv_sorted : structs_sorted (st_heap s)
}.
Definition full (s : pools) : Prop := forall n, n < length (st_heap s) -> In n (owned (st_pools s)) \/ In n (st_released s).

Lemma occ_in : forall l n, In n l <-> 1 <= occ l n.
Proof. intros l n. rewrite (count_occ_In Nat.eq_dec). lia. Qed.
Lemma occ_one : forall k n, occ [k] n = if Nat.eq_dec k n then 1 else 0.
Proof. intros. cbn. destruct (Nat.eq_dec k n); reflexivity. Qed.

Lemma inv_init : inv init_pools.
Proof. constructor; cbn; intros; try lia; try tauto. intros n m H. unfold cell in H. destruct n; discriminate. Qed.
Lemma full_init : full init_pools.
Proof. intros n H. cbn in H. lia. Qed.

(** Creation and cloning append new objects to memory and to the pool. *)
Lemma inv_grow : forall s p own t, inv s -> storage s p = Some own ->
  Forall (fun o => o <> None) t -> structs_sorted (st_heap s ++ t) ->
  let s' := mkPools (st_heap s ++ t) (st_buffers s) (set_nth p (Some (own ++ seq (length (st_heap s)) (length t))) (st_pools s)) (st_released s) in
  inv s' /\ (full s -> full s').
Proof.
  intros s p own t I S T ST. cbv zeta. apply storage_nth in S. destruct I as [O R A _].
  assert (K : forall n, occ (owned (set_nth p (Some (own ++ seq (length (st_heap s)) (length t))) (st_pools s))) n =
     occ (owned (st_pools s)) n + occ (seq (length (st_heap s)) (length t)) n).
  { intros n. pose proof (owned_set _ _ _ (Some (own ++ seq (length (st_heap s)) (length t))) n S) as E. cbn [content] in E. rewrite occ_app in E. lia. }
  assert (N : forall n, occ (seq (length (st_heap s)) (length t)) n <= 1) by (apply nodup_occ, seq_NoDup).
  assert (N1 : forall n, n < length (st_heap s) -> occ (seq (length (st_heap s)) (length t)) n = 0).
  { intros n L. apply count_occ_not_In. rewrite in_seq. lia. }
  assert (N2 : forall n, length (st_heap s) <= n < length (st_heap s) + length t -> 1 <= occ (seq (length (st_heap s)) (length t)) n).
  { intros n L. apply occ_in, in_seq. lia. }
  assert (N3 : forall n, 1 <= occ (seq (length (st_heap s)) (length t)) n -> length (st_heap s) <= n < length (st_heap s) + length t).
  { intros n L. apply occ_in, in_seq in L. lia. }
  assert (Z : forall n, length (st_heap s) <= n -> occ (owned (st_pools s)) n = 0 /\ occ (st_released s) n = 0).
  { intros n L. split; apply count_occ_not_In; intros X; assert (n < length (st_heap s)) by (apply R; tauto); lia. }
  split.
  - constructor; cbn [st_heap st_buffers st_pools st_released].
    + intros n. rewrite K. specialize (O n). specialize (N n). destruct (lt_dec n (length (st_heap s))) as [L|L]; [rewrite N1 by assumption; lia|].
      destruct (Z n ltac:(lia)) as [-> ->]. lia.
    + intros n. rewrite app_length. rewrite !occ_in, K. intros H.
      destruct (lt_dec n (length (st_heap s))) as [L|L]; [lia|]. destruct (Z n ltac:(lia)) as [Z1 Z2]. rewrite Z1, Z2 in H. pose proof (N3 n). lia.
    + intros n L. rewrite app_length in L. destruct (lt_dec n (length (st_heap s))) as [L'|L'].
      * rewrite <- (A n L'). unfold cell. rewrite nth_error_app1 by assumption. reflexivity.
      * unfold cell. rewrite nth_error_app2 by lia. destruct (nth_error t (n - length (st_heap s))) as [o|] eqn:E; [|apply nth_error_None in E; lia].
        apply nth_error_In in E. rewrite Forall_forall in T. specialize (T _ E). destruct o as [x|]; [|congruence].
        split; [discriminate|]. intros X. apply occ_in in X. destruct (Z n ltac:(lia)). lia.
    + exact ST.
  - intros F n L. cbn [st_heap st_pools st_released] in *. rewrite app_length in L. rewrite !occ_in, K.
    destruct (lt_dec n (length (st_heap s))) as [L'|L']; [specialize (F n L'); rewrite !occ_in in F; lia|]. pose proof (N2 n). lia.
Qed.

(** ** Cloning *)
(** Memory grown by new objects, which were put into a pool. *)
Definition grown (h : heap) (own : list nat) (h' : heap) (own' : list nat) : Prop :=
  exists t, h' = h ++ t /\ Forall (fun o => o <> None) t /\ own' = own ++ seq (length h) (length t) /\ (structs_sorted h -> structs_sorted h').

Lemma grown_refl : forall h own, grown h own h own.
Proof. intros. exists []. split; [symmetry; apply app_nil_r|]. split; [constructor|]. split; [symmetry; apply app_nil_r|auto]. Qed.
Lemma grown_trans : forall h own h1 own1 h2 own2, grown h own h1 own1 -> grown h1 own1 h2 own2 -> grown h own h2 own2.
Proof.
  intros h own h1 own1 h2 own2 (t & -> & F & -> & S) (t' & -> & F' & -> & S'). exists (t ++ t'). rewrite !app_assoc. split; [reflexivity|].
  split; [apply Forall_app; auto|]. split; [|auto]. rewrite <- !app_assoc. f_equal. rewrite !app_length, <- seq_app. reflexivity.
Qed.
Lemma sorted_new : forall h x, structs_sorted h -> (forall m, x = NStruct m -> increasing m) -> structs_sorted (h ++ [Some x]).
Proof.
  intros h x S X n m C. unfold cell in C. destruct (lt_dec n (length h)) as [L|L].
  - rewrite nth_error_app1 in C by assumption. apply (S n m). unfold cell. exact C.
  - rewrite nth_error_app2 in C by lia. destruct (n - length h) as [|k]; [|destruct k; discriminate]. cbn in C. injection C as C. apply X. assumption.
Qed.
Lemma grown_create : forall h own x, (forall m, x = NStruct m -> increasing m) ->
  forall h' own' r, create h own x = (h', own', r) -> grown h own h' own' /\ r = RObj (length h) /\ h' = h ++ [Some x].
Proof.
  intros h own x X h' own' r E. unfold create in E. injection E as <- <- <-. split; [|split; reflexivity]. exists [Some x]. split; [reflexivity|].
  split; [constructor; [discriminate|constructor]|]. split; [reflexivity|]. intros S. apply sorted_new; assumption.
Qed.
Lemma grown_set : forall h own h' own' k x, grown h own h' own' -> length h <= k < length h' -> (forall m, x = NStruct m -> increasing m) ->
  grown h own (set_nth k (Some x) h') own'.
Proof.
  intros h own h' own' k x (t & -> & F & -> & S) L X.
  assert (E : set_nth k (Some x) (h ++ t) = h ++ set_nth (k - length h) (Some x) t).
  { clear F S. revert k L. induction h as [|y h IH]; intros k L; [cbn; rewrite Nat.sub_0_r; reflexivity|]. destruct k as [|k]; [cbn in L; lia|].
    cbn. f_equal. apply IH. cbn in L. rewrite app_length in *. lia. }
  exists (set_nth (k - length h) (Some x) t). split; [exact E|]. split.
  - clear - F. revert t F. induction (k - length h) as [|j IH]; intros t F; destruct F; cbn; constructor; auto; discriminate.
  - split; [rewrite set_nth_length; reflexivity|]. intros S0 n m C. specialize (S S0). rewrite cell_set_some in C by lia.
    destruct (Nat.eq_dec n k); [injection C as C; auto|]. exact (S n m C).
Qed.
Lemma map_insert_increasing : forall A k (x : A) m, increasing m -> increasing (map_insert k x m).
Proof. intros A k x m I. rewrite map_insert_spec by assumption. destruct (map_get k m); [assumption|]. apply map_set_increasing. assumption. Qed.

Lemma clone_grown : forall val fuel h own r h' own' r', clone val fuel h own r = Some (Ok (h', own', r')) -> grown h own h' own'.
Proof.
  intros val. induction fuel as [|f IH]; intros h own r h' own' r' E; [discriminate|]. cbn [clone] in E.
  destruct r as [|n]; [injection E as <- <- <-; apply grown_refl|]. destruct (cell h n) as [x|]; [|discriminate].
  destruct x as [v|b|l|m|t].
  - match type of E with Some (Ok ?c) = Some (Ok ?d) => assert (E' : c = d) by congruence end. refine (proj1 (grown_create _ _ _ _ _ _ _ E')). discriminate.
  - match type of E with Some (Ok ?c) = Some (Ok ?d) => assert (E' : c = d) by congruence end. refine (proj1 (grown_create _ _ _ _ _ _ _ E')). discriminate.
  - set (k := length h) in *.
    match type of E with ?g _ _ _ _ = _ => set (items := g) in * end.
    assert (G : forall l H O acc, grown h own H O -> k < length H -> items H O l acc = Some (Ok (h', own', r')) -> grown h own h' own').
    { induction l0 as [|y l0 IHl]; intros H O acc GR L Q.
      - cbn in Q. injection Q as <- <- <-. apply grown_set; [assumption|fold k; lia|discriminate].
      - cbn in Q. fold items in Q. destruct (clone val f H O y) as [[[[h1 o1] r1]|e|]|] eqn:C; try discriminate.
        pose proof (IH _ _ _ _ _ _ C) as G1. eapply IHl; [eapply grown_trans; [exact GR|exact G1]| |exact Q].
        destruct G1 as (t & -> & _). rewrite app_length. lia. }
    eapply (G l); [|..|exact E]; [|rewrite app_length; cbn; unfold k; lia].
    refine (proj1 (grown_create _ _ (NArray []) _ _ _ (RObj k) _)); [discriminate|reflexivity].
  - set (k := length h) in *.
    match type of E with ?g _ _ _ _ = _ => set (members := g) in * end.
    assert (G : forall m H O acc, grown h own H O -> k < length H -> increasing acc -> members H O m acc = Some (Ok (h', own', r')) -> grown h own h' own').
    { induction m0 as [|[key y] m0 IHl]; intros H O acc GR L A Q.
      - cbn in Q. injection Q as <- <- <-. apply grown_set; [assumption|fold k; lia|]. intros m0 X. injection X as <-. assumption.
      - cbn in Q. fold members in Q. destruct (clone val f H O y) as [[[[h1 o1] r1]|e|]|] eqn:C; try discriminate.
        pose proof (IH _ _ _ _ _ _ C) as G1. eapply IHl; [eapply grown_trans; [exact GR|exact G1]| | |exact Q].
        + destruct G1 as (t & -> & _). rewrite app_length. lia.
        + apply map_insert_increasing. assumption. }
    eapply (G m); [|..|exact E]; [|rewrite app_length; cbn; unfold k; lia|exact I].
    refine (proj1 (grown_create _ _ (NStruct []) _ _ _ (RObj k) _)); [|reflexivity]. intros m0 X. injection X as <-. exact I.
  - destruct (clone val f h own t) as [[[[h1 o1] r1]|e|]|] eqn:C; try discriminate. match type of E with Some (Ok ?c) = Some (Ok ?d) => assert (E' : c = d) by congruence end.
    eapply grown_trans; [eapply IH; exact C|]. refine (proj1 (grown_create _ _ _ _ _ _ _ E')). discriminate.
Qed.

(** ** Reading *)
Lemma tree_keep : forall v h b (P Q : nat -> Prop) h' b' (P' Q' : nat -> Prop) r,
  (forall n, P n -> cell h n <> None -> cell h' n = cell h n /\ P' n) ->
  (forall k, Q k -> nth_error b k <> None -> nth_error b' k = nth_error b k /\ Q' k) ->
  tree h b P Q v r -> tree h' b' P' Q' v r.
Proof.
  intros v h b P Q h' b' P' Q'. induction v using value_nested_ind; intros r HP HQ T; cbn [tree] in *; try assumption.
  1-4,6-8: destruct T as (n0 & -> & Pn & C); destruct (HP n0 Pn ltac:(congruence)) as [Cn Pn']; exists n0; repeat split; auto; congruence.
  - destruct T as (n & k & -> & Pn & C & Qk & B). destruct (HP n Pn ltac:(congruence)) as [Cn Pn']. destruct (HQ k Qk ltac:(congruence)) as [Bk Qk'].
    exists n, k. repeat split; auto; congruence.
  - destruct T as (n & ts & -> & Pn & C & A). destruct (HP n Pn ltac:(congruence)) as [Cn Pn']. exists n, ts. split; [reflexivity|]. split; [assumption|]. split; [congruence|].
    clear C. revert ts A. induction H as [|[k x] m H1 H2 IH]; intros [|[k' t] ts] A; try exact A; try contradiction.
    destruct A as (-> & A1 & A2). cbn [snd] in H1. split; [reflexivity|]. split; [apply H1; assumption|]. apply IH. exact A2.
  - destruct T as (n & ts & -> & Pn & C & A). destruct (HP n Pn ltac:(congruence)) as [Cn Pn']. exists n, ts. split; [reflexivity|]. split; [assumption|]. split; [congruence|].
    clear C. revert ts A. induction H as [|x l H1 H2 IH]; intros [|t ts] A; try exact A; try contradiction.
    destruct A as (A1 & A2). split; [apply H1; assumption|]. apply IH. exact A2.
  - destruct T as (n & t & -> & Pn & C & A). destruct (HP n Pn ltac:(congruence)) as [Cn Pn']. exists n, t. split; [reflexivity|]. split; [assumption|]. split; [congruence|auto].
Qed.

(** A clone reads the same and consists of new objects. *)
Definition clones (val : option mktime_t) (v : value) (f : nat) : Prop :=
  forall h b P Q own r, structs_sorted h -> tree h b P Q v r -> exists h' own' r', clone val f h own r = Some (Ok (h', own', r')) /\
    tree h' b (fun n => length h <= n < length h') Q v r'.

Lemma tree_app : forall v h t b P Q r, tree h b P Q v r -> tree (h ++ t) b P Q v r.
Proof.
  intros v h t b P Q r T. refine (tree_keep v h b P Q _ b P Q r _ _ T); [|auto].
  intros n Pn C. split; [|assumption]. destruct (cell h n) eqn:E; [|congruence]. apply cell_app. assumption.
Qed.
Lemma grown_length : forall h own h' own', grown h own h' own' -> length h <= length h'.
Proof. intros h own h' own' (t & -> & _). rewrite app_length. lia. Qed.

Lemma clone_leaf_ok : forall val f v h b P Q own r, (forall h b P Q r, tree h b P Q v r = exists n, r = RObj n /\ P n /\ cell h n = Some (NLeaf v)) ->
  clone_leaf val v = v -> tree h b P Q v r -> exists h' own' r', clone val (S f) h own r = Some (Ok (h', own', r')) /\
    tree h' b (fun n => length h <= n < length h') Q v r'.
Proof.
  intros val f v h b P Q own r TE CL T. rewrite TE in T. destruct T as (n & -> & _ & C). cbn [clone]. rewrite C, CL. unfold create.
  do 3 eexists. split; [reflexivity|]. rewrite TE. exists (length h). split; [reflexivity|]. split; [rewrite app_length; cbn; lia|]. apply cell_app_new.
Qed.
Lemma tree_array : forall h b P Q l r, tree h b P Q (VArray l) r <->
  exists n ts, r = RObj n /\ P n /\ cell h n = Some (NArray ts) /\ Forall2 (tree h b P Q) l ts.
Proof.
  intros h b P Q l r. cbn [tree].
  assert (E : forall ts, (fix all (l : list value) (ts : list ref) : Prop :=
         match l, ts with [], [] => True | x :: l', t :: ts' => tree h b P Q x t /\ all l' ts' | _, _ => False end) l ts <-> Forall2 (tree h b P Q) l ts).
  { induction l as [|x l IH]; intros [|t ts]; split; intros H; try (inversion H; fail); try constructor; try contradiction.
    - apply H.
    - apply IH, H.
    - inversion H; assumption.
    - apply IH. inversion H; assumption. }
  split; intros (n & ts & A & B & C & D); exists n, ts; (split; [exact A|]; split; [exact B|]; split; [exact C|]); apply E; exact D.
Qed.
Lemma tree_struct : forall h b P Q m r, tree h b P Q (VStruct m) r <->
  exists n ts, r = RObj n /\ P n /\ cell h n = Some (NStruct ts) /\ Forall2 (fun kv kt => fst kv = fst kt /\ tree h b P Q (snd kv) (snd kt)) m ts.
Proof.
  intros h b P Q m r. cbn [tree].
  assert (E : forall ts, (fix all (m : list (bytes * value)) (ts : list (bytes * ref)) : Prop :=
         match m, ts with [], [] => True | (k, x) :: m', (k', t) :: ts' => k = k' /\ tree h b P Q x t /\ all m' ts' | _, _ => False end) m ts <->
         Forall2 (fun kv kt => fst kv = fst kt /\ tree h b P Q (snd kv) (snd kt)) m ts).
  { induction m as [|[k x] m IH]; intros [|[k' t] ts]; split; intros H; try (inversion H; fail); try constructor; try contradiction.
    - split; apply H.
    - apply IH, H.
    - inversion H as [|? ? ? ? [A B] C]; assumption.
    - inversion H as [|? ? ? ? [A B] C]. split; [exact B|]. apply IH. assumption. }
  split; intros (n & ts & A & B & C & D); exists n, ts; (split; [exact A|]; split; [exact B|]; split; [exact C|]); apply E; exact D.
Qed.
Lemma Forall2_imp : forall A B (R S : A -> B -> Prop) l l', (forall x y, R x y -> S x y) -> Forall2 R l l' -> Forall2 S l l'.
Proof. intros A B R S l l' H F. induction F; constructor; auto. Qed.

Lemma forall_max : forall A (R : A -> nat -> Prop) l, Forall (fun x => exists f0, forall f, f0 <= f -> R x f) l ->
  exists f0, forall f, f0 <= f -> Forall (fun x => R x f) l.
Proof.
  intros A R l F. induction F as [|x l (f1 & H1) _ (f2 & H2)]; [exists 0; intros; constructor|].
  exists (Nat.max f1 f2). intros f L. constructor; [apply H1; lia|apply H2; lia].
Qed.

Lemma clone_reads : forall val v, dates_agree val v -> exists f0, forall f, f0 <= f -> clones val v f.
Proof.
  intros val v. induction v using value_nested_ind; intros D.
  1-2,4-5,7-8: exists 1; intros [|f] L; [lia|]; intros h bf P Q own r _ T; refine (clone_leaf_ok _ _ _ h bf P Q _ _ _ _ T); reflexivity.
  - exists 1. intros [|f] L; [lia|]. intros h b P Q own r _ T. cbn in T. subst r. cbn [clone]. do 3 eexists. split; [reflexivity|]. reflexivity.
  - exists 1. intros [|f] L; [lia|]. intros h b P Q own r _ T. cbn [tree] in T. destruct T as (n & k & -> & _ & C & Qk & B). cbn [clone]. rewrite C. unfold create.
    do 3 eexists. split; [reflexivity|]. exists (length h), k. split; [reflexivity|]. split; [rewrite app_length; cbn; lia|]. split; [apply cell_app_new|]. auto.
  - exists 1. intros [|f] L; [lia|]. intros h b P Q own r _ T. refine (clone_leaf_ok _ _ _ h b P Q _ _ _ _ T); [reflexivity|]. cbn [clone_leaf]. f_equal.
    unfold make_datetime. destruct val as [mk|]; [|reflexivity]. cbn in D. destruct (D mk eq_refl) as (w & E & W). rewrite E. destruct d; cbn in *. subst. reflexivity.
  - assert (F : exists f0, forall f, f0 <= f -> Forall (fun kv => clones val (snd kv) f) m).
    { apply (forall_max _ (fun kv f => clones val (snd kv) f)). revert D. cbn [dates_agree]. induction H as [|[k x] m H1 H2 IH]; intros D; constructor; [apply H1; tauto|apply IH; tauto]. }
    destruct F as (f0 & F). exists (S f0). intros [|f] L; [lia|]. specialize (F f ltac:(lia)). intros h b P Q own r SO T. apply tree_struct in T.
    destruct T as (n & ts & -> & _ & C & A). cbn [clone]. rewrite C.
    set (k := length h) in *.
    match goal with |- exists _ _ _, ?g _ _ _ _ = _ /\ _ => set (members := g) in * end.
    pose proof (SO n ts C) as I. clear C H D.
    assert (G : forall m, Forall (fun kv => clones val (snd kv) f) m -> forall ts H O acc macc, structs_sorted H -> (exists t0, H = h ++ Some (NStruct []) :: t0) ->
       increasing (map (fun kt => (fst kt, tt)) (acc ++ ts)) ->
       Forall2 (fun kv kt => fst kv = fst kt /\ tree h b P Q (snd kv) (snd kt)) m ts ->
       Forall2 (fun kv kt => fst kv = fst kt /\ tree H b (fun n => k < n < length H) Q (snd kv) (snd kt)) macc acc ->
       exists h' own' r', members H O ts acc = Some (Ok (h', own', r')) /\
         tree h' b (fun n => k <= n < length h') Q (VStruct (macc ++ m)) r').
    { clear A F ts I m. intros m F. induction F as [|[k1 x] m F1 F2 IH]; intros ts H O acc macc SH (t0 & HE) I A B.
      - inversion A; subst ts. cbn. do 3 eexists. split; [reflexivity|]. apply tree_struct. exists k. eexists. split; [reflexivity|].
        assert (LH : k < length H) by (rewrite HE, app_length; cbn; unfold k; lia). rewrite set_nth_length. split; [lia|].
        split; [rewrite cell_set_some by assumption; destruct (Nat.eq_dec k k); [reflexivity|congruence]|].
        rewrite app_nil_r. refine (Forall2_imp _ _ _ _ _ _ _ B). intros kv kt [B1 B2]. split; [exact B1|]. refine (tree_keep _ _ b _ Q _ b _ Q _ _ _ B2); [|auto].
        intros j Pj Cj. rewrite cell_set_some by assumption. destruct (Nat.eq_dec j k); [lia|]. split; [reflexivity|lia].
      - inversion A as [|? [k2 t] ? ts' [A0 A1] A2]; subst ts. cbn [fst snd] in *. subst k2.
        destruct (F1 H b P Q O t SH ltac:(rewrite HE; apply tree_app; exact A1)) as (h1 & o1 & r1 & C & T1). pose proof (clone_grown _ _ _ _ _ _ _ _ C) as GR.
        pose proof GR as (t1 & E1 & _ & _ & SS). assert (LH : k < length H) by (rewrite HE, app_length; cbn; unfold k; lia).
        pose proof (grown_length _ _ _ _ GR) as LG.
        assert (MI : map_insert k1 r1 acc = acc ++ [(k1, r1)]).
        { rewrite map_app in I. destruct (increasing_app _ _ _ I) as (_ & _ & I2).
          assert (MG : forall (a : list (bytes * ref)), (forall k' y, In (k', y) a -> bytes_cmp k' k1 = Lt) -> map_insert k1 r1 a = a ++ [(k1, r1)]).
          { induction a as [|[k' y] a IHa]; intros HA; [reflexivity|]. cbn [map_insert app].
            rewrite bytes_cmp_antisym, (HA k' y (or_introl eq_refl)). cbn [CompOpp]. f_equal. apply IHa. intros k'' z Z. apply (HA k'' z). right. assumption. }
          apply MG. intros k' y Y. apply (I2 k' tt k1 tt); [apply (in_map (fun kt => (fst kt, tt)) _ _ Y)|left; reflexivity]. }
        destruct (IH ts' h1 o1 (acc ++ [(k1, r1)]) (macc ++ [(k1, x)])) as (h' & own' & r' & E & T).
        + apply SS. assumption.
        + exists (t0 ++ t1). rewrite E1, HE, <- app_assoc. reflexivity.
        + rewrite <- app_assoc. rewrite map_app in *. exact I.
        + exact A2.
        + apply Forall2_app.
          * refine (Forall2_imp _ _ _ _ _ _ _ B). intros kv kt [B1 B2]. split; [exact B1|]. rewrite E1. apply tree_app.
            refine (tree_keep _ _ b _ Q _ b _ Q _ _ _ B2); [|auto]. intros j Pj _. split; [reflexivity|]. rewrite app_length. lia.
          * constructor; [|constructor]. split; [reflexivity|]. refine (tree_keep _ _ b _ Q _ b _ Q _ _ _ T1); [|auto]. intros j Pj _. split; [reflexivity|]. lia.
        + exists h', own', r'. split; [|rewrite <- app_assoc in T; exact T]. cbn. rewrite C, MI. exact E. }
    apply (G m F ts _ _ [] []); [|exists []; reflexivity| |exact A|constructor].
    + apply sorted_new; [assumption|]. intros m0 X. injection X as <-. exact Logic.I.
    + cbn [app]. apply (increasing_map _ _ (fun _ => tt)). exact I.
  - assert (F : exists f0, forall f, f0 <= f -> Forall (fun x => clones val x f) l).
    { apply (forall_max _ (fun x f => clones val x f)). revert D. cbn [dates_agree]. induction H as [|x l H1 H2 IH]; intros D; constructor; [apply H1; tauto|apply IH; tauto]. }
    destruct F as (f0 & F). exists (S f0). intros [|f] L; [lia|]. specialize (F f ltac:(lia)). intros h b P Q own r SO T. apply tree_array in T.
    destruct T as (n & ts & -> & _ & C & A). cbn [clone]. rewrite C.
    set (k := length h) in *.
    match goal with |- exists _ _ _, ?g _ _ _ _ = _ /\ _ => set (items := g) in * end.
    clear C H D.
    assert (G : forall l, Forall (fun x => clones val x f) l -> forall ts H O acc lacc, structs_sorted H -> (exists t0, H = h ++ Some (NArray []) :: t0) ->
       Forall2 (tree h b P Q) l ts -> Forall2 (tree H b (fun n => k < n < length H) Q) lacc acc ->
       exists h' own' r', items H O ts acc = Some (Ok (h', own', r')) /\
         tree h' b (fun n => k <= n < length h') Q (VArray (lacc ++ l)) r').
    { clear A F ts l. intros l F. induction F as [|x l F1 F2 IH]; intros ts H O acc lacc SH (t0 & HE) A B.
      - inversion A; subst ts. cbn. do 3 eexists. split; [reflexivity|]. apply tree_array. exists k. eexists. split; [reflexivity|].
        assert (LH : k < length H) by (rewrite HE, app_length; cbn; unfold k; lia). rewrite set_nth_length. split; [lia|].
        split; [rewrite cell_set_some by assumption; destruct (Nat.eq_dec k k); [reflexivity|congruence]|].
        rewrite app_nil_r. refine (Forall2_imp _ _ _ _ _ _ _ B). intros y s B2. refine (tree_keep _ _ b _ Q _ b _ Q _ _ _ B2); [|auto].
        intros j Pj Cj. rewrite cell_set_some by assumption. destruct (Nat.eq_dec j k); [lia|]. split; [reflexivity|lia].
      - inversion A as [|? t ? ts' A1 A2]; subst ts.
        destruct (F1 H b P Q O t SH ltac:(rewrite HE; apply tree_app; exact A1)) as (h1 & o1 & r1 & C & T1). pose proof (clone_grown _ _ _ _ _ _ _ _ C) as GR.
        pose proof GR as (t1 & E1 & _ & _ & SS). assert (LH : k < length H) by (rewrite HE, app_length; cbn; unfold k; lia).
        pose proof (grown_length _ _ _ _ GR) as LG.
        destruct (IH ts' h1 o1 (acc ++ [r1]) (lacc ++ [x])) as (h' & own' & r' & E & T).
        + apply SS. assumption.
        + exists (t0 ++ t1). rewrite E1, HE, <- app_assoc. reflexivity.
        + exact A2.
        + apply Forall2_app.
          * refine (Forall2_imp _ _ _ _ _ _ _ B). intros y s B2. rewrite E1. apply tree_app.
            refine (tree_keep _ _ b _ Q _ b _ Q _ _ _ B2); [|auto]. intros j Pj _. split; [reflexivity|]. rewrite app_length. lia.
          * constructor; [|constructor]. refine (tree_keep _ _ b _ Q _ b _ Q _ _ _ T1); [|auto]. intros j Pj _. split; [reflexivity|]. lia.
        + exists h', own', r'. split; [|rewrite <- app_assoc in T; exact T]. cbn. rewrite C. exact E. }
    apply (G l F ts _ _ [] []); [|exists []; reflexivity|exact A|constructor].
    apply sorted_new; [assumption|]. discriminate.
  - destruct (IHv D) as (f0 & F). exists (S f0). intros [|f] L; [lia|]. specialize (F f ltac:(lia)). intros h b P Q own r SO T. cbn [tree] in T.
    destruct T as (n & t & -> & _ & C & A). cbn [clone]. rewrite C. destruct (F h b P Q own t SO A) as (h1 & o1 & r1 & C1 & T1). rewrite C1. unfold create.
    pose proof (grown_length _ _ _ _ (clone_grown _ _ _ _ _ _ _ _ C1)) as LG.
    do 3 eexists. split; [reflexivity|]. exists (length h1), r1. split; [reflexivity|]. rewrite app_length. cbn [length]. split; [lia|]. split; [apply cell_app_new|].
    apply tree_app. refine (tree_keep _ _ b _ Q _ b _ Q _ _ _ T1); [|auto]. intros j Pj _. split; [reflexivity|]. lia.
Qed.

(** ** Every operation keeps the invariant *)
Lemma own_nodup : forall s p own, inv s -> storage s p = Some own -> NoDup own /\ (forall n, In n own -> cell (st_heap s) n <> None /\ ~ In n (st_released s)).
Proof.
  intros s p own I S. apply storage_nth in S. pose proof (inv_once s I) as O. split.
  - apply nodup_occ. intros n. pose proof (occ_own _ _ _ n S). specialize (O n). lia.
  - intros n H. pose proof (occ_own _ _ _ n S) as K. apply occ_in in H. specialize (O n).
    assert (R : ~ In n (st_released s)) by (rewrite occ_in; lia). split; [|exact R]. rewrite (inv_alive s I n); [assumption|].
    apply (inv_range s I). left. apply occ_in. lia.
Qed.

Lemma inv_release : forall s p own (x : option (list nat)), inv s -> storage s p = Some own -> content x = [] ->
  exists h, delete_all (st_heap s) own = Ok h /\ length h = length (st_heap s) /\
    (forall k, cell h k = if in_dec Nat.eq_dec k own then None else cell (st_heap s) k) /\
    let s' := mkPools h (st_buffers s) (set_nth p x (st_pools s)) (st_released s ++ own) in inv s' /\ (full s -> full s').
Proof.
  intros s p own x I S X. destruct (own_nodup s p own I S) as [N A]. destruct (delete_all_ok own (st_heap s) N (fun n H => proj1 (A n H))) as (h & D & L & C).
  exists h. split; [exact D|]. split; [exact L|]. split; [exact C|]. cbv zeta. apply storage_nth in S.
  assert (K : forall n, occ (owned (set_nth p x (st_pools s))) n + occ own n = occ (owned (st_pools s)) n).
  { intros n. pose proof (owned_set _ _ _ x n S) as E. rewrite X in E. cbn [count_occ] in E. lia. }
  split.
  - constructor; cbn [st_heap st_pools st_released].
    + intros n. rewrite occ_app. pose proof (inv_once s I n). specialize (K n). lia.
    + intros n H. rewrite L. apply (inv_range s I). rewrite !occ_in in *. rewrite occ_app in H. specialize (K n). lia.
    + intros n H. rewrite L in H. rewrite C, in_app_iff. destruct (in_dec Nat.eq_dec n own); [tauto|]. rewrite (inv_alive s I n H). tauto.
    + intros n m H. rewrite C in H. destruct (in_dec Nat.eq_dec n own); [discriminate|]. exact (inv_sorted s I n m H).
  - intros F n H. cbn [st_heap st_pools st_released] in *. rewrite L in H. specialize (F n H). rewrite !occ_in in *. rewrite occ_app. specialize (K n). lia.
Qed.

(** Operations that change only the lists of the pools. *)
Lemma inv_lists : forall s ps, inv s -> (forall n, occ (owned ps) n <= occ (owned (st_pools s)) n) ->
  inv (mkPools (st_heap s) (st_buffers s) ps (st_released s)).
Proof.
  intros s ps I K. constructor; cbn [st_heap st_pools st_released].
  - intros n. pose proof (inv_once s I n). specialize (K n). lia.
  - intros n H. apply (inv_range s I). rewrite !occ_in in *. specialize (K n). lia.
  - apply (inv_alive s I).
  - apply (inv_sorted s I).
Qed.
Lemma full_lists : forall s ps b, full s -> (forall n, occ (owned ps) n = occ (owned (st_pools s)) n) ->
  full (mkPools (st_heap s) b ps (st_released s)).
Proof. intros s ps b F K n H. cbn [st_heap st_pools st_released] in *. rewrite !occ_in, K, <- !occ_in. apply F. assumption. Qed.
Lemma inv_buffers : forall s b, inv s -> inv (mkPools (st_heap s) b (st_pools s) (st_released s)) /\ (full s -> full (mkPools (st_heap s) b (st_pools s) (st_released s))).
Proof. intros s b [A B C D]. split; [constructor; assumption|]. auto. Qed.
Lemma inv_change : forall s a x y, inv s -> cell (st_heap s) a = Some y -> (forall m, x = NStruct m -> increasing m) ->
  let s' := mkPools (set_nth a (Some x) (st_heap s)) (st_buffers s) (st_pools s) (st_released s) in inv s' /\ (full s -> full s').
Proof.
  intros s a x y I E X. cbv zeta. pose proof (cell_lt _ _ _ E) as L. split.
  - constructor; cbn [st_heap st_pools st_released].
    + apply (inv_once s I).
    + intros n. rewrite set_nth_length. apply (inv_range s I).
    + intros n H. rewrite set_nth_length in H. rewrite cell_set_some by assumption. rewrite <- (inv_alive s I n H).
      destruct (Nat.eq_dec n a) as [->|]; [|tauto]. rewrite E. split; discriminate.
    + intros n m H. rewrite cell_set_some in H by assumption. destruct (Nat.eq_dec n a); [injection H as H; auto|]. exact (inv_sorted s I n m H).
  - intros F n H. cbn [st_heap st_pools st_released] in *. rewrite set_nth_length in H. apply F. assumption.
Qed.

Lemma made_sorted : forall x m, made x = NStruct m -> increasing m.
Proof.
  intros x m H. destruct x; try discriminate. cbn [made] in H. injection H as <-.
  assert (G : forall (l acc : list (bytes * ref)), increasing acc -> increasing (fold_left (fun acc kv => map_insert (fst kv) (snd kv) acc) l acc)).
  { induction l as [|kv l IH]; intros acc A; [exact A|]. cbn. apply IH, map_insert_increasing, A. }
  apply G. exact I.
Qed.

Lemma step_inv : forall val fuel s o s' r, inv s -> step val fuel s o = Some (Ok (s', r)) -> inv s' /\ (full s -> fine s o -> full s').
Proof.
  intros val fuel s o s' r I E. destruct o as [|p x|p t|a t|a k t|p|p q|q|p q|p|b|b]; cbn [step] in E.
  - injection E as <- <-. split.
    + apply inv_lists; [assumption|]. intros n. rewrite owned_app. cbn. rewrite occ_app. cbn. lia.
    + intros F _. apply full_lists; [assumption|]. intros n. rewrite owned_app. cbn. rewrite occ_app. cbn. lia.
  - destruct (storage s p) as [own|] eqn:S; [|discriminate]. cbn [create] in E. injection E as <- <-.
    destruct (inv_grow s p own [Some (made x)] I S) as [A B].
    + constructor; [discriminate|constructor].
    + apply sorted_new; [apply (inv_sorted s I)|]. intros m M. apply made_sorted in M. assumption.
    + split; [exact A|]. intros F _. apply B. exact F.
  - destruct (storage s p) as [own|] eqn:S; [|discriminate]. destruct (clone val fuel (st_heap s) own t) as [[[[h o'] r']|e|]|] eqn:C; try discriminate.
    injection E as <- <-. destruct (clone_grown _ _ _ _ _ _ _ _ C) as (u & -> & F & -> & SS).
    destruct (inv_grow s p own u I S F (SS (inv_sorted s I))) as [A B]. split; [exact A|]. intros FF _. apply B. exact FF.
  - destruct (cell (st_heap s) a) as [x|] eqn:C; [|discriminate]. destruct x; try discriminate. injection E as <- <-.
    destruct (inv_change s a (NArray (l ++ [t])) _ I C ltac:(discriminate)) as [A B]. split; [exact A|]. intros F _. apply B. exact F.
  - destruct (cell (st_heap s) a) as [x|] eqn:C; [|discriminate]. destruct x; try discriminate. destruct (255 <? blen k)%Z; [discriminate|]. injection E as <- <-.
    destruct (inv_change s a (NStruct (map_set k t m)) _ I C) as [A B].
    { intros m' M. injection M as <-. apply map_set_increasing. exact (inv_sorted s I a m C). }
    split; [exact A|]. intros F _. apply B. exact F.
  - destruct (storage s p) as [own|] eqn:S; [|discriminate]. destruct (inv_release s p own (Some []) I S eq_refl) as (h & D & _ & _ & A & B). rewrite D in E.
    injection E as <- <-. split; [exact A|]. intros F _. apply B. exact F.
  - destruct (storage s p) as [own|] eqn:S; [|discriminate]. destruct (storage s q) as [other|] eqn:S'; [|discriminate]. injection E as <- <-.
    apply storage_nth in S. apply storage_nth in S'. pose proof (nth_lt _ _ _ _ S) as LP.
    assert (K : p <> q -> forall n, occ (owned (set_nth q (Some []) (set_nth p (Some (own ++ other)) (st_pools s)))) n = occ (owned (st_pools s)) n).
    { intros NE n. pose proof (owned_set _ _ _ (Some (own ++ other)) n S) as E1.
      assert (S'' : nth_error (set_nth p (Some (own ++ other)) (st_pools s)) q = Some (Some other)) by (rewrite set_nth_other by congruence; exact S').
      pose proof (owned_set _ _ _ (Some []) n S'') as E2. cbn [content] in *. rewrite occ_app in E1. cbn [count_occ] in E2. lia. }
    split.
    + apply inv_lists; [assumption|]. intros n. destruct (Nat.eq_dec p q) as [->|NE]; [|rewrite K by assumption; lia].
      pose proof (owned_set _ _ _ (Some (own ++ other)) n S) as E1.
      pose proof (owned_set (set_nth q (Some (own ++ other)) (st_pools s)) q (own ++ other) (Some []) n (set_nth_same _ _ _ _ LP)) as E2. cbn [content count_occ] in *. lia.
    + intros F NE. cbn in NE. apply full_lists; [assumption|]. apply K. assumption.
  - destruct (storage s q) as [other|] eqn:S; [|discriminate]. injection E as <- <-. apply storage_nth in S.
    assert (K : forall n, occ (owned (set_nth q (Some []) (st_pools s) ++ [Some other])) n = occ (owned (st_pools s)) n).
    { intros n. rewrite owned_app, occ_app. pose proof (owned_set _ _ _ (Some []) n S) as E1. cbn [content count_occ] in E1. unfold owned at 2. cbn [map concat content]. rewrite app_nil_r. lia. }
    split; [apply inv_lists; [assumption|]; intros n; rewrite K; lia|]. intros F _. apply full_lists; [assumption|]. apply K.
  - destruct (storage s p) as [own|] eqn:S; [|discriminate]. destruct (storage s q) as [other|] eqn:S'; [|discriminate]. injection E as <- <-.
    pose proof S as SO. apply storage_nth in S. apply storage_nth in S'. pose proof (nth_lt _ _ _ _ S) as LP.
    assert (K : p <> q -> forall n, occ (owned (set_nth q (Some []) (set_nth p (Some other) (st_pools s)))) n + occ own n = occ (owned (st_pools s)) n).
    { intros NE n. pose proof (owned_set _ _ _ (Some other) n S) as E1.
      assert (S'' : nth_error (set_nth p (Some other) (st_pools s)) q = Some (Some other)) by (rewrite set_nth_other by congruence; exact S').
      pose proof (owned_set _ _ _ (Some []) n S'') as E2. cbn [content count_occ] in *. lia. }
    split.
    + apply inv_lists; [assumption|]. intros n. destruct (Nat.eq_dec p q) as [->|NE]; [|pose proof (K NE n); lia].
      pose proof (owned_set _ _ _ (Some other) n S) as E1.
      pose proof (owned_set (set_nth q (Some other) (st_pools s)) q other (Some []) n (set_nth_same _ _ _ _ LP)) as E2. cbn [content count_occ] in *. lia.
    + intros F [NE Z]. apply full_lists; [assumption|]. intros n. rewrite SO in Z. injection Z as ->. pose proof (K NE n) as KK. cbn [count_occ] in KK. lia.
  - destruct (storage s p) as [own|] eqn:S; [|discriminate]. destruct (inv_release s p own None I S eq_refl) as (h & D & _ & _ & A & B). rewrite D in E.
    injection E as <- <-. split; [exact A|]. intros F _. apply B. exact F.
  - injection E as <- <-. destruct (inv_buffers s (st_buffers s ++ [Some b]) I) as [A B]. split; [exact A|]. auto.
  - injection E as <- <-. destruct (inv_buffers s (set_nth b None (st_buffers s)) I) as [A B]. split; [exact A|]. auto.
Qed.

Lemma run_inv : forall val fuel l s s', inv s -> run val fuel s l = Some (Ok s') -> inv s' /\ (full s -> careful val fuel s l -> full s').
Proof.
  induction l as [|o l IH]; intros s s' I R; cbn [run careful] in *; [injection R as <-; auto|].
  destruct (step val fuel s o) as [[[s1 r1]|e|]|] eqn:E; try discriminate.
  - destruct (step_inv _ _ _ _ _ _ I E) as [I1 F1]. destruct (IH s1 s' I1 R) as [I2 F2]. split; [exact I2|]. intros F [A B]. auto.
  - destruct (IH s s' I R) as [I2 F2]. split; [exact I2|]. intros F [A B]. auto.
Qed.

(** Operations that leave a pool and the objects of a value alone. *)
Lemma storage_set : forall h b ps p x rl q, storage (mkPools h b (set_nth p x ps) rl) q =
  if Nat.eq_dec q p then (if lt_dec p (length ps) then x else None) else storage (mkPools h b ps rl) q.
Proof.
  intros. unfold storage. cbn [st_pools]. destruct (Nat.eq_dec q p) as [->|E].
  - destruct (lt_dec p (length ps)) as [L|L]; [rewrite set_nth_same by assumption; destruct x; reflexivity|].
    assert (X : nth_error (set_nth p x ps) p = None) by (apply nth_error_None; rewrite set_nth_length; lia). rewrite X. reflexivity.
  - rewrite set_nth_other by assumption. reflexivity.
Qed.

Lemma step_keeps : forall val fuel s o s' r p (P Q : nat -> Prop) v t, inv s -> step val fuel s o = Some (Ok (s', r)) -> leaves_alone p P Q o ->
  (forall n, P n -> belongs s p n) -> reads_with s P Q v t -> (forall n, P n -> belongs s' p n) /\ reads_with s' P Q v t.
Proof.
  intros val fuel s o s' r p P Q v t I E LA B T. unfold reads_with in *.
  assert (KEEP : forall h' b', (forall n, P n -> cell (st_heap s) n <> None -> cell h' n = cell (st_heap s) n) ->
     (forall k, Q k -> nth_error (st_buffers s) k <> None -> nth_error b' k = nth_error (st_buffers s) k) -> tree h' b' P Q v t).
  { intros h' b' H1 H2. refine (tree_keep v _ _ P Q _ _ P Q t _ _ T); auto. }
  assert (GROW : forall u, tree (st_heap s ++ u) (st_buffers s) P Q v t) by (intros u; apply tree_app; exact T).
  assert (APART : forall x own n, x <> p -> storage s x = Some own -> P n -> ~ In n own).
  { intros x own n NE S Pn X. destruct (B n Pn) as (own' & S' & X'). apply storage_nth in S. apply storage_nth in S'.
    pose proof (owned_set _ _ _ (Some []) n S) as E1.
    assert (S'' : nth_error (set_nth x (Some []) (st_pools s)) p = Some (Some own')) by (rewrite set_nth_other by congruence; exact S').
    pose proof (occ_own _ _ _ n S'') as E2. cbn [content count_occ] in E1. pose proof (inv_once s I n). apply occ_in in X. apply occ_in in X'. lia. }
  destruct o as [|x y|x y|a y|a k y|x|x y|x|x y|x|b|b]; cbn [step leaves_alone] in *.
  - injection E as <- <-. cbn [st_heap st_buffers]. split; [|exact T]. intros n Pn. destruct (B n Pn) as (own & S & N). exists own. split; [|exact N].
    apply storage_nth in S. apply storage_nth. cbn [st_pools]. rewrite nth_error_app1; [exact S|]. apply nth_lt in S. exact S.
  - destruct (storage s x) as [own|] eqn:S; [|discriminate]. cbn [create] in E. injection E as <- <-. cbn [st_heap st_buffers]. split; [|apply GROW].
    intros n Pn. destruct (B n Pn) as (own' & S' & N). unfold belongs. rewrite storage_set. destruct (Nat.eq_dec p x) as [->|NE]; [|exists own'; auto].
    assert (L : x < length (st_pools s)) by (apply storage_nth in S; apply nth_lt in S; exact S). destruct (lt_dec x (length (st_pools s))); [|contradiction].
    eexists. split; [reflexivity|]. apply in_app_iff. left. congruence.
  - destruct (storage s x) as [own|] eqn:S; [|discriminate]. destruct (clone val fuel (st_heap s) own y) as [[[[h o'] r']|e|]|] eqn:C; try discriminate.
    injection E as <- <-. destruct (clone_grown _ _ _ _ _ _ _ _ C) as (u & -> & F & -> & SS). cbn [st_heap st_buffers]. split; [|apply GROW].
    intros n Pn. destruct (B n Pn) as (own' & S' & N). unfold belongs. rewrite storage_set. destruct (Nat.eq_dec p x) as [->|NE]; [|exists own'; auto].
    assert (L : x < length (st_pools s)) by (apply storage_nth in S; apply nth_lt in S; exact S). destruct (lt_dec x (length (st_pools s))); [|contradiction].
    eexists. split; [reflexivity|]. apply in_app_iff. left. congruence.
  - destruct (cell (st_heap s) a) as [z|] eqn:C; [|discriminate]. destruct z; try discriminate. injection E as <- <-. cbn [st_heap st_buffers].
    split; [exact B|]. apply KEEP; [|auto]. intros n Pn Cn. rewrite cell_set_some by (eapply cell_lt; exact C). destruct (Nat.eq_dec n a) as [->|]; [contradiction|reflexivity].
  - destruct (cell (st_heap s) a) as [z|] eqn:C; [|discriminate]. destruct z; try discriminate. destruct (255 <? blen k)%Z; [discriminate|]. injection E as <- <-. cbn [st_heap st_buffers].
    split; [exact B|]. apply KEEP; [|auto]. intros n Pn Cn. rewrite cell_set_some by (eapply cell_lt; exact C). destruct (Nat.eq_dec n a) as [->|]; [contradiction|reflexivity].
  - destruct (storage s x) as [own|] eqn:S; [|discriminate]. destruct (inv_release s x own (Some []) I S eq_refl) as (h & D & _ & C & _). rewrite D in E.
    injection E as <- <-. cbn [st_heap st_buffers]. split.
    + intros n Pn. destruct (B n Pn) as (own' & S' & N). exists own'. split; [|exact N]. rewrite storage_set. destruct (Nat.eq_dec p x); [congruence|exact S'].
    + apply KEEP; [|auto]. intros n Pn _. rewrite C. destruct (in_dec Nat.eq_dec n own) as [X|]; [|reflexivity]. exfalso. exact (APART x own n LA S Pn X).
  - destruct (storage s x) as [own|] eqn:S; [|discriminate]. destruct (storage s y) as [other|] eqn:S'; [|discriminate]. injection E as <- <-. cbn [st_heap st_buffers].
    split; [|exact T]. intros n Pn. destruct (B n Pn) as (own' & S'' & N). unfold belongs. rewrite storage_set. destruct (Nat.eq_dec p y); [congruence|].
    rewrite storage_set. destruct (Nat.eq_dec p x) as [->|NE]; [|exists own'; auto].
    assert (L : x < length (st_pools s)) by (apply storage_nth in S; apply nth_lt in S; exact S). destruct (lt_dec x (length (st_pools s))); [|contradiction].
    eexists. split; [reflexivity|]. apply in_app_iff. left. congruence.
  - destruct (storage s x) as [own|] eqn:S; [|discriminate]. injection E as <- <-. cbn [st_heap st_buffers]. split; [|exact T].
    intros n Pn. destruct (B n Pn) as (own' & S' & N). exists own'. split; [|exact N]. apply storage_nth in S'. apply storage_nth. cbn [st_pools].
    rewrite nth_error_app1 by (rewrite set_nth_length; eapply nth_lt; exact S'). rewrite set_nth_other by congruence. exact S'.
  - destruct (storage s x) as [own|] eqn:S; [|discriminate]. destruct (storage s y) as [other|] eqn:S'; [|discriminate]. injection E as <- <-. cbn [st_heap st_buffers].
    split; [|exact T]. intros n Pn. destruct (B n Pn) as (own' & S'' & N). unfold belongs. rewrite storage_set. destruct (Nat.eq_dec p y); [destruct LA; congruence|].
    rewrite storage_set. destruct (Nat.eq_dec p x) as [->|NE]; [destruct LA; congruence|exists own'; auto].
  - destruct (storage s x) as [own|] eqn:S; [|discriminate]. destruct (inv_release s x own None I S eq_refl) as (h & D & _ & C & _). rewrite D in E.
    injection E as <- <-. cbn [st_heap st_buffers]. split.
    + intros n Pn. destruct (B n Pn) as (own' & S' & N). exists own'. split; [|exact N]. rewrite storage_set. destruct (Nat.eq_dec p x); [congruence|exact S'].
    + apply KEEP; [|auto]. intros n Pn _. rewrite C. destruct (in_dec Nat.eq_dec n own) as [X|]; [|reflexivity]. exfalso. exact (APART x own n LA S Pn X).
  - injection E as <- <-. cbn [st_heap st_buffers]. split; [exact B|]. apply KEEP; [auto|]. intros k Qk NK. apply nth_error_app1. apply nth_error_Some. exact NK.
  - injection E as <- <-. cbn [st_heap st_buffers]. split; [exact B|]. apply KEEP; [auto|]. intros k Qk NK. apply set_nth_other. congruence.
Qed.

Lemma run_keeps : forall val fuel p (P Q : nat -> Prop) v t l s s', inv s -> run val fuel s l = Some (Ok s') -> Forall (leaves_alone p P Q) l ->
  (forall n, P n -> belongs s p n) -> reads_with s P Q v t -> (forall n, P n -> belongs s' p n) /\ reads_with s' P Q v t.
Proof.
  intros val fuel p P Q v t. induction l as [|o l IH]; intros s s' I R F B T; cbn [run] in R; [injection R as <-; auto|].
  inversion F as [|? ? F1 F2]; subst. destruct (step val fuel s o) as [[[s1 r1]|e|]|] eqn:E; try discriminate.
  - destruct (step_keeps _ _ _ _ _ _ _ _ _ _ _ I E F1 B T) as [B1 T1]. destruct (step_inv _ _ _ _ _ _ I E) as [I1 _]. eapply IH; eauto.
  - eapply IH; eauto.
Qed.
