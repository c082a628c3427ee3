(** C53, C68: pools and clones. *)
From Coq Require Import Lia Permutation.
From Verif Require Import Base Value M_TreeBuilder M_Pool S_Pool L_Pool.
Open Scope nat_scope.

(** * C53 *)
(** No object is ever deleted twice, none is deleted that was not created, and the objects deleted are those released
    by a pool. *)
Theorem C53_at_most_once : forall val fuel l s, reached val fuel l s ->
  NoDup (st_released s) /\ forall n, In n (st_released s) <-> deleted s n.
Proof.
  intros val fuel l s R. destruct (run_inv _ _ _ _ _ inv_init R) as [I _]. split.
  - apply nodup_occ. intros n. pose proof (inv_once s I n). lia.
  - intros n. split.
    + intros H. assert (L : created s n) by (apply (inv_range s I); right; exact H). split; [exact L|]. apply (inv_alive s I n L). exact H.
    + intros [L C]. apply (inv_alive s I n L). exact C.
Qed.
(** Emptying or destroying a pool deletes exactly what it owns, once, all of it alive until then; everything else stays
    as it is. *)
Theorem C53_free : forall val fuel l s p own o, reached val fuel l s -> storage s p = Some own -> o = Free p \/ o = Destroy p ->
  exists s', step val fuel s o = Some (Ok (s', RNull)) /\ st_released s' = st_released s ++ own /\ NoDup own /\
    (forall n, In n own -> cell (st_heap s) n <> None /\ cell (st_heap s') n = None) /\
    (forall n, ~ In n own -> cell (st_heap s') n = cell (st_heap s) n) /\ storage s' p = (match o with Free _ => Some [] | _ => None end).
Proof.
  intros val fuel l s p own o R S O. destruct (run_inv _ _ _ _ _ inv_init R) as [I _]. destruct (own_nodup s p own I S) as [N A].
  assert (L : p < length (st_pools s)) by (apply storage_nth in S; apply nth_lt in S; exact S).
  destruct O as [-> | ->]; cbn [step]; rewrite S.
  - destruct (inv_release s p own (Some []) I S eq_refl) as (h & D & _ & C & _). rewrite D. eexists. split; [reflexivity|]. cbn [st_released st_heap].
    split; [reflexivity|]. split; [exact N|]. split; [|split].
    + intros n H. split; [apply A; exact H|]. rewrite C. destruct (in_dec Nat.eq_dec n own); [reflexivity|contradiction].
    + intros n H. rewrite C. destruct (in_dec Nat.eq_dec n own); [contradiction|reflexivity].
    + rewrite storage_set. destruct (Nat.eq_dec p p); [|congruence]. destruct (lt_dec p (length (st_pools s))); [reflexivity|contradiction].
  - destruct (inv_release s p own None I S eq_refl) as (h & D & _ & C & _). rewrite D. eexists. split; [reflexivity|]. cbn [st_released st_heap].
    split; [reflexivity|]. split; [exact N|]. split; [|split].
    + intros n H. split; [apply A; exact H|]. rewrite C. destruct (in_dec Nat.eq_dec n own); [reflexivity|contradiction].
    + intros n H. rewrite C. destruct (in_dec Nat.eq_dec n own); [contradiction|reflexivity].
    + rewrite storage_set. destruct (Nat.eq_dec p p); [|congruence]. destruct (lt_dec p (length (st_pools s))); reflexivity.
Qed.
(** If no pool owning something is overwritten and none steals from itself, every object created has been deleted
    exactly once when the last pool is gone. *)
Theorem C53_exactly_once_partial : forall val fuel l s, reached val fuel l s -> careful val fuel init_pools l -> all_gone s ->
  Permutation (st_released s) (seq 0 (length (st_heap s))).
Proof.
  intros val fuel l s R C G. destruct (run_inv _ _ _ _ _ inv_init R) as [I F]. specialize (F full_init C).
  assert (E : owned (st_pools s) = []).
  { assert (X : forall ps, (forall p own, nth_error ps p = Some (Some own) -> own = []) -> owned ps = []).
    { induction ps as [|[own|] ps IH]; intros H; [reflexivity| |]; unfold owned; cbn [map concat content].
      - rewrite (H 0 own eq_refl). cbn [app]. apply IH. intros p o. apply (H (S p) o).
      - cbn [app]. apply IH. intros p o. apply (H (S p) o). }
    apply X. intros p own S. apply (G p own). apply storage_nth. exact S. }
  apply (Permutation_count_occ Nat.eq_dec). intros n. pose proof (inv_once s I n) as O.
  assert (N : occ (seq 0 (length (st_heap s))) n <= 1) by (apply nodup_occ, seq_NoDup).
  destruct (lt_dec n (length (st_heap s))) as [L|L].
  - assert (A : In n (st_released s)) by (destruct (F n L) as [X|X]; [rewrite E in X; contradiction|exact X]). apply occ_in in A.
    assert (B : In n (seq 0 (length (st_heap s)))) by (apply in_seq; lia). apply occ_in in B. lia.
  - assert (A : occ (st_released s) n = 0) by (apply count_occ_not_In; intros X; apply L; apply (inv_range s I); right; exact X).
    assert (B : occ (seq 0 (length (st_heap s))) n = 0) by (apply count_occ_not_In; rewrite in_seq; lia). lia.
Qed.
Print Assumptions C53_exactly_once_partial.
Example C53_sample : let l := [New_pool; New_pool; Create 0 (NLeaf (VInt 1)); Create 0 (NArray [RObj 0]); Clone 1 (RObj 1); Steal 0 1; Move_construct 0; Create 1 (NLeaf (VBool true));
    Free 1; Move_assign 0 2; Destroy 0; Destroy 1; Destroy 2] in
  careful None 9 init_pools l /\ exists s, reached None 9 l s /\ all_gone s /\ length (st_heap s) = 5 /\ st_released s = [4; 0; 1; 2; 3].
Proof.
  cbv zeta. split.
  - vm_compute. repeat split; discriminate.
  - eexists. split; [vm_compute; reflexivity|]. split; [|vm_compute; auto]. intros [|[|[|p]]] own H; try (vm_compute in H; discriminate).
    unfold storage in H. cbn in H. destruct p; discriminate.
Qed.

(** ** What does not hold *)
(** Moving a pool onto another one loses what that one owned; a pool that steals from itself, or is moved onto itself,
    loses everything. *)
Theorem C53_refuted : forall o, In o [Move_assign 0 1; Steal 0 0; Move_assign 0 0] -> exists s,
  reached None 1 [New_pool; New_pool; Create 0 (NLeaf (VInt 1)); o; Destroy 0; Destroy 1] s /\
  all_gone s /\ created s 0 /\ ~ deleted s 0.
Proof.
  intros o O. cbn [In] in O. destruct O as [<-|[<-|[<-|[]]]]; (eexists; split; [vm_compute; reflexivity|]); (split; [|split; [vm_compute; lia|intros [_ X]; vm_compute in X; discriminate]]);
    intros [|[|p]] own H; try (vm_compute in H; discriminate); unfold storage in H; cbn in H; destruct p; discriminate.
Qed.

(** * C68 *)
(** A clone reads the same as the original, and all its objects are new and belong to the pool it was made in; only the
    buffers of string views are those of the original. *)
Theorem C68_clone : forall val l fuel0 s p own P Q v r, reached val fuel0 l s -> storage s p = Some own -> dates_agree val v -> reads_with s P Q v r ->
  exists depth, forall fuel, depth <= fuel -> exists s' r', step val fuel s (Clone p r) = Some (Ok (s', r')) /\
    reads_with s' (made_between s s') Q v r' /\ (forall n, made_between s s' n -> belongs s' p n) /\ reads_with s' P Q v r.
Proof.
  intros val l fuel0 s p own P Q v r R S D T. destruct (run_inv _ _ _ _ _ inv_init R) as [I _].
  destruct (clone_reads val v D) as (f0 & F). exists f0. intros fuel L.
  destruct (F fuel L (st_heap s) (st_buffers s) P Q own r (inv_sorted s I) T) as (h & own' & r' & C & T'). cbn [step]. rewrite S, C.
  do 2 eexists. split; [reflexivity|]. destruct (clone_grown _ _ _ _ _ _ _ _ C) as (u & -> & _ & -> & _). split; [exact T'|]. split.
  - intros n [N1 N2]. cbn [st_heap] in *. unfold belongs. rewrite storage_set. destruct (Nat.eq_dec p p); [|congruence].
    assert (LP : p < length (st_pools s)) by (apply storage_nth in S; apply nth_lt in S; exact S). destruct (lt_dec p (length (st_pools s))); [|contradiction].
    eexists. split; [reflexivity|]. apply in_app_iff. right. apply in_seq. rewrite app_length in N2. lia.
  - unfold reads_with. cbn [st_heap st_buffers]. apply tree_app. exact T.
Qed.
(** A value whose objects belong to a pool stays as it is, whatever happens to other pools and other objects, until the
    pool is emptied, moved or destroyed. *)
Theorem C68_lives : forall val l fuel0 s p P Q v r, reached val fuel0 l s -> reads_with s P Q v r -> (forall n, P n -> belongs s p n) ->
  forall fuel later s', run val fuel s later = Some (Ok s') -> Forall (leaves_alone p P Q) later -> reads_with s' P Q v r.
Proof.
  intros val l fuel0 s p P Q v r R T B fuel later s' R' F. destruct (run_inv _ _ _ _ _ inv_init R) as [I _].
  apply (run_keeps val fuel p P Q v r later s s' I R' F B T).
Qed.
(** Together: a clone of a value without string views lives on, unchanged, whatever happens to the original, its pool and
    the user's buffers. *)
Lemma no_views_tree : forall v h b P Q r, no_views v -> tree h b P Q v r -> tree h b P (fun _ => False) v r.
Proof.
  intros v h b P Q. induction v using value_nested_ind; intros r V T; try exact T; try contradiction.
  - cbn [tree no_views] in *. destruct T as (n & ts & -> & Pn & C & A). exists n, ts. split; [reflexivity|]. split; [exact Pn|]. split; [exact C|]. clear C.
    revert ts V A. induction H as [|[k x] m H1 H2 IH]; intros [|[k' t] ts] V A; try exact A. destruct V as [V1 V2]. destruct A as (A1 & A2 & A3).
    split; [exact A1|]. split; [apply H1; assumption|apply IH; assumption].
  - cbn [tree no_views] in *. destruct T as (n & ts & -> & Pn & C & A). exists n, ts. split; [reflexivity|]. split; [exact Pn|]. split; [exact C|]. clear C.
    revert ts V A. induction H as [|x l H1 H2 IH]; intros [|t ts] V A; try exact A. destruct V as [V1 V2]. destruct A as (A2 & A3).
    split; [apply H1; assumption|apply IH; assumption].
  - cbn [tree no_views] in *. destruct T as (n & t & -> & Pn & C & A). exists n, t. split; [reflexivity|]. split; [exact Pn|]. split; [exact C|]. apply IHv; assumption.
Qed.
Theorem C68_independent_partial : forall val l fuel0 s p own v r, reached val fuel0 l s -> storage s p = Some own -> dates_agree val v -> no_views v -> reads s v r ->
  exists depth, forall fuel, depth <= fuel -> exists s' r', step val fuel s (Clone p r) = Some (Ok (s', r')) /\ reads s' v r' /\
    forall fuel' later s'', run val fuel' s' later = Some (Ok s'') -> Forall (leaves_alone p (made_between s s') (fun _ => False)) later -> reads s'' v r'.
Proof.
  intros val l fuel0 s p own v r R S D V T.
  destruct (C68_clone val l fuel0 s p own _ _ v r R S D T) as (d & C). exists d. intros fuel L. destruct (C fuel L) as (s' & r' & E & T' & B & _). exists s', r'.
  split; [exact E|]. assert (T2 : reads_with s' (made_between s s') (fun _ => False) v r') by (apply no_views_tree with (Q := fun _ => True); assumption).
  assert (W : forall s0, reads_with s0 (made_between s s') (fun _ => False) v r' -> reads s0 v r').
  { intros s0 X. refine (tree_keep v _ _ _ _ _ _ _ _ r' _ _ X); [auto|intros k []]. }
  split; [apply W; exact T2|]. intros fuel' later s'' R' A. apply W.
  destruct (run_inv _ _ _ _ _ inv_init R) as [I _]. destruct (step_inv _ _ _ _ _ _ I E) as [I1 _].
  apply (run_keeps val fuel' p _ _ v r' later s' s'' I1 R' A B T2).
Qed.
Print Assumptions C68_independent_partial.

Definition sample_ops : list op := [New_pool; New_pool; Create 0 (NLeaf (VInt 1)); Create 0 (NStruct [(str "b", RNull); (str "a", RObj 0); (str "b", RObj 0)]);
  Create 0 (NSecret (RObj 1)); Create 0 (NArray [RObj 2; RObj 0])].
Definition sample_value : value := VArray [VSecret (VStruct [(str "a", VInt 1); (str "b", VNull)]); VInt 1].
Example C68_sample : exists s, reached None 9 sample_ops s /\ storage s 1 = Some [] /\ no_views sample_value /\ reads s sample_value (RObj 3) /\
  exists s' s'', step None 9 s (Clone 1 (RObj 3)) = Some (Ok (s', RObj 4)) /\
    Forall (leaves_alone 1 (made_between s s') (fun _ => False)) [Append 3 RNull; Destroy 0] /\ run None 9 s' [Append 3 RNull; Destroy 0] = Some (Ok s'') /\ deleted s'' 3.
Proof.
  eexists. split; [vm_compute; reflexivity|]. split; [reflexivity|]. split; [vm_compute; auto|]. split.
  - unfold reads, sample_value. cbn. repeat eexists.
  - do 2 eexists. split; [vm_compute; reflexivity|]. split; [|split; [vm_compute; reflexivity|split; [vm_compute; lia|reflexivity]]].
    constructor; [cbn; unfold made_between; cbn; lia|]. constructor; [discriminate|constructor].
Qed.

(** ** What does not hold *)
(** The clone of a string view dies with the buffer of the original. *)
Theorem C68_view_refuted : exists s s' s'', reached None 9 [New_pool; New_pool; New_buffer (str "text"); Create 0 (NView 0)] s /\
  reads s (VStringView (str "text")) (RObj 0) /\ step None 9 s (Clone 1 (RObj 0)) = Some (Ok (s', RObj 1)) /\
  run None 9 s' [Destroy 0; Drop_buffer 0] = Some (Ok s'') /\ forall v, ~ reads s'' v (RObj 1).
Proof.
  do 3 eexists. split; [vm_compute; reflexivity|]. split; [unfold reads; cbn; exists 0, 0; repeat split; reflexivity|]. split; [vm_compute; reflexivity|].
  split; [vm_compute; reflexivity|]. intros v H. unfold reads in H. cbn [st_heap st_buffers] in H.
  destruct v; cbn [tree] in H; try discriminate;
    try (destruct H as (n & E & _ & C); injection E as <-; cbn in C; discriminate);
    try (destruct H as (n & k & E & _ & C & _ & B); injection E as <-; cbn in C; injection C as <-; cbn in B; discriminate);
    try (destruct H as (n & k & E & _ & C & _); injection E as <-; cbn in C; discriminate).
Qed.
(** The clone of a date made with [ForceUTCTime], which does not validate, has another time if dates are validated. *)
Theorem C68_date_refuted : forall mk d, ~ agrees mk d -> exists s s' v, reached (Some mk) 1 [New_pool; Create 0 (NLeaf (VDateTime d))] s /\
  reads s (VDateTime d) (RObj 0) /\ step (Some mk) 1 s (Clone 0 (RObj 0)) = Some (Ok (s', RObj 1)) /\ reads s' v (RObj 1) /\ v <> VDateTime d.
Proof.
  intros mk d N. do 2 eexists. exists (VDateTime (make_datetime (Some mk) d)). split; [reflexivity|].
  split; [exists 0; repeat split|]. split; [reflexivity|]. split; [exists 1; repeat split|]. intros E. injection E as E. apply N. unfold make_datetime in E.
  destruct (mk (dt_year d) (dt_month d) (dt_day d) (dt_hour d) (dt_min d) (dt_sec d)) as [t w] eqn:M. exists w. rewrite M, <- E. cbn. auto.
Qed.
(** Cloning an array that contains itself does not end, whatever the depth of the stack. *)
Theorem C68_cycle_refuted : exists s, reached None 1 [New_pool; Create 0 (NArray []); Append 0 (RObj 0)] s /\
  forall fuel, step None fuel s (Clone 0 (RObj 0)) = None.
Proof.
  eexists. split; [vm_compute; reflexivity|]. intros fuel. cbn [step]. unfold storage. cbn [st_pools nth_error st_heap].
  assert (G : forall fuel h own, cell h 0 = Some (NArray [RObj 0]) -> clone None fuel h own (RObj 0) = None).
  { induction fuel0 as [|f IH]; intros h own C; [reflexivity|]. cbn [clone]. rewrite C. rewrite IH; [reflexivity|]. apply cell_app. exact C. }
  rewrite G by reflexivity. reflexivity.
Qed.
