(** C128: a value in memory is marshalled as what it reads as, whatever it shares with others and wherever it came from.

    It does not hold of arrays that contain themselves. *)
From Coq Require Import Lia.
From Verif Require Import Base Value M_Marshal M_TreeBuilder M_Pool S_Pool L_Pool P_Pool M_PoolFeed S_PoolFeed L_PoolFeed.

(** A value that reads as a tree is fed as this tree, with a stack that is deep enough. *)
Theorem C128_partial : forall s v r, reads s v r -> exists depth, forall stack, (depth <= stack)%nat -> feed_ref stack s r = Some (Ok (feed v)).
Proof. intros s v r T. destruct (feed_reads s v) as (d & D). exists d. intros k L. exact (D k L r _ _ T). Qed.

(** What is fed is a value that reads as a tree, as this tree: nothing deleted, no buffer that is gone, nothing that contains itself. *)
Theorem C128_reads_partial : forall s, (forall n v, cell (st_heap s) n = Some (NLeaf v) -> scalar v) ->
  forall stack r calls, feed_ref stack s r = Some (Ok calls) -> exists v, reads s v r /\ calls = feed v.
Proof. intros s W k r c E. destruct (feed_built s W k r c E) as (v & T & <-). exists v. split; [exact T|reflexivity]. Qed.

(** A clone is fed as the original was, whatever has happened to the original, its pool and the user's buffers since. *)
Theorem C128_clone_partial : forall val l fuel0 s p own v r, reached val fuel0 l s -> storage s p = Some own -> dates_agree val v -> no_views v -> reads s v r ->
  exists depth, forall fuel, (depth <= fuel)%nat -> exists s' r', step val fuel s (Clone p r) = Some (Ok (s', r')) /\
    forall fuel' later s'', run val fuel' s' later = Some (Ok s'') -> Forall (leaves_alone p (made_between s s') (fun _ => False)) later ->
    exists d, forall stack, (d <= stack)%nat -> feed_ref stack s r = Some (Ok (feed v)) /\ feed_ref stack s'' r' = Some (Ok (feed v)).
Proof.
  intros val l fuel0 s p own v r R S D V T. destruct (C68_independent_partial val l fuel0 s p own v r R S D V T) as (d & C). exists d. intros fuel L.
  destruct (C fuel L) as (s' & r' & E & _ & K). exists s', r'. split; [exact E|]. intros fuel' later s'' R' A.
  destruct (C128_partial _ _ _ T) as (d1 & F1). destruct (C128_partial _ _ _ (K fuel' later s'' R' A)) as (d2 & F2).
  exists (Nat.max d1 d2). intros k LK. split; [apply F1|apply F2]; lia.
Qed.

(** So a value that contains itself, over any number of arrays, structs and secrets, is marshalled with no stack. *)
Theorem C128_never_partial : forall s, (forall n v, cell (st_heap s) n = Some (NLeaf v) -> scalar v) ->
  forall r, value_in_itself s r -> forall stack calls, feed_ref stack s r <> Some (Ok calls).
Proof. intros s W r C k c E. destruct (feed_built s W k r c E) as (v & T & _). exact (itself_no_tree s r v C T). Qed.
Example C128_never_sample : exists s, reached None 9 [New_pool; Create 0 (NStruct []); Create 0 (NSecret (RObj 0)); Create 0 (NArray [RObj 1]); Set_member 0 (str "a") (RObj 2)] s /\
  value_in_itself s (RObj 2) /\ (forall n v, cell (st_heap s) n = Some (NLeaf v) -> scalar v).
Proof.
  eexists. split; [vm_compute; reflexivity|]. split.
  - apply Relation_Operators.t_trans with (RObj 1); [apply Relation_Operators.t_trans with (RObj 0)|]; apply Relation_Operators.t_step; cbn; auto.
  - intros [|[|[|[|n]]]] v E; cbn in E; discriminate.
Qed.

(** An array that is an item of itself, after items that can be read, exhausts every stack. *)
Theorem C128_refuted : forall s n before after, cell (st_heap s) n = Some (NArray (before ++ RObj n :: after)) ->
  Forall (fun r => exists v, reads s v r) before -> forall stack, feed_ref stack s (RObj n) = None.
Proof. intros s n before after C F. exact (cycle_ends s n before after C F). Qed.
(** A program comes to it by [append]. *)
Example C128_witness : exists s, reached None 1 [New_pool; Create 0 (NLeaf (VInt 7)); Create 0 (NArray [RObj 0]); Append 1 (RObj 1)] s /\
  forall stack, feed_ref stack s (RObj 1) = None.
Proof.
  eexists. split; [vm_compute; reflexivity|]. apply (C128_refuted _ 1 [RObj 0] []); [reflexivity|].
  constructor; [|constructor]. exists (VInt 7). exists 0%nat. repeat split.
Qed.
(** An array with the same struct in it twice. *)
Example C128_shared : exists s, reached None 9 [New_pool; Create 0 (NLeaf (VInt 7)); Create 0 (NStruct [(str "a", RObj 0)]); Create 0 (NArray [RObj 1; RNull; RObj 1])] s /\
  reads s (VArray [VStruct [(str "a", VInt 7)]; VNull; VStruct [(str "a", VInt 7)]]) (RObj 2) /\
  feed_ref 3 s (RObj 2) = Some (Ok [PArray 3; PStruct 1; PMember (str "a"); PInt 7; PNull; PStruct 1; PMember (str "a"); PInt 7]).
Proof. eexists. split; [vm_compute; reflexivity|]. split; [unfold reads; cbn; repeat eexists|reflexivity]. Qed.
(** A value of a pool that is gone, a view of a buffer that is gone. *)
Example C128_dead : exists s, reached None 9 [New_pool; Create 0 (NLeaf (VInt 7)); Destroy 0] s /\ feed_ref 3 s (RObj 0) = Some UB.
Proof. eexists. split; [vm_compute; reflexivity|reflexivity]. Qed.
Print Assumptions C128_partial. Print Assumptions C128_reads_partial. Print Assumptions C128_clone_partial. Print Assumptions C128_refuted. Print Assumptions C128_never_partial.
