(** C127: every Python object handed to the module is written, or refused with an exception, whatever objects it contains.

    It does not hold of objects that contain themselves. *)
From Coq Require Import Relations.
From Verif Require Import Base Value M_Marshal M_Python M_PyCycle S_PyCycle L_PyCycle.

(** An object that is a finite tree is written, or refused, as that tree is, however often parts of it are shared, if the stack holds as many
    calls as the tree is deep. *)
Theorem C127_tree_partial : forall host heap p i stack, holds heap p i -> (depth p <= stack)%nat -> feed_obj host heap stack i = Some (feed_py host p).
Proof. intros. apply feed_tree; assumption. Qed.

(** What is written without an exception is a finite tree, and it is that tree that is written. *)
Theorem C127_written_partial : forall host heap, (forall i p, heap i = N_plain p -> plain p) -> forall stack i calls,
  feed_obj host heap stack i = Some (calls, None) -> exists p, holds heap p i /\ feed_py host p = (calls, None).
Proof. intros host heap WF stack i calls E. exact (feed_written host heap WF stack i calls E). Qed.

(** So an object that contains itself, however indirectly, is written with no stack ... *)
Theorem C127_never_written_partial : forall host heap, (forall i p, heap i = N_plain p -> plain p) -> forall i, contains_itself heap i ->
  forall stack calls, feed_obj host heap stack i <> Some (calls, None).
Proof. intros host heap WF i C stack calls. exact (cycle_not_written host heap WF i C stack calls). Qed.

(** ... and a list or tuple that is an item of itself, after items that are written, exhausts every stack: no exception is raised and the process
    ends. *)
Theorem C127_refuted : forall host heap i tuple before after, heap i = N_list tuple (before ++ i :: after) ->
  Forall (fun j => exists p, holds heap p j /\ snd (feed_py host p) = None) before -> forall stack, feed_obj host heap stack i = None.
Proof. intros host heap i tuple before after E F. exact (cycle_ends host heap i tuple before after E F). Qed.

(** Neither is there an exception when a dict or list contains itself over any number of others, and all other values and names can be written. *)
Theorem C127_any_cycle_refuted : forall host heap,
  (forall i p, heap i = N_plain p -> plain p) ->
  (forall i p, heap i = N_plain p -> snd (feed_py host p) = None) ->
  (forall i ks k j, heap i = N_dict ks -> In (k, j) ks -> exists s, k = PyStr s /\ py_encode s <> None) ->
  forall i, contains_itself heap i -> forall stack, feed_obj host heap stack i = None.
Proof. intros host heap WF P K i C stack. exact (cycle_exhausts host heap WF P K i C stack). Qed.
(** [d = {}; d["a"] = (7, d)]. *)
Definition own_member (i : Z) : node := if i =? 0 then N_dict [(PyStr [97], 1)] else if i =? 1 then N_list true [2; 0] else N_plain (PyInt 7).
Example C127_any_cycle_witness : forall stack, feed_obj (fun d => d) own_member stack 0 = None.
Proof.
  apply C127_any_cycle_refuted.
  - intros i p. unfold own_member. destruct (i =? 0), (i =? 1); intro E; inversion E; exact I.
  - intros i p. unfold own_member. destruct (i =? 0), (i =? 1); intro E; inversion E; reflexivity.
  - intros i ks k j. unfold own_member. destruct (i =? 0), (i =? 1); intro E; inversion E; subst; intros [H|[]]; inversion H; exists [97]; split; (reflexivity || discriminate).
  - apply t_trans with 1; apply t_step; cbn; auto.
Qed.

(** [l = [7]; l.append(l)]. *)
Definition own_item (i : Z) : node := if i =? 0 then N_list false [1; 0] else N_plain (PyInt 7).
Example C127_witness : forall stack, feed_obj (fun d => d) own_item stack 0 = None.
Proof.
  apply (C127_refuted _ own_item 0 false [1] []); [reflexivity|]. constructor; [|constructor].
  exists (PyInt 7). split; reflexivity.
Qed.
Example C127_witness_contains : contains_itself own_item 0 /\ (forall i p, own_item i = N_plain p -> plain p).
Proof.
  split; [apply t_step; cbn; auto|]. intros i p. unfold own_item. destruct (i =? 0); intro E; inversion E; exact I.
Qed.
(** [s = [7]; [s, s]] shares an item and is written. *)
Definition shared (i : Z) : node := if i =? 0 then N_list false [1; 1] else if i =? 1 then N_list false [2] else N_plain (PyInt 7).
Example C127_shared : feed_obj (fun d => d) shared 3 0 = Some (feed_py (fun d => d) (PyList [PyList [PyInt 7]; PyList [PyInt 7]])).
Proof.
  apply C127_tree_partial; [|repeat constructor]. exists [1; 1]. split; [reflexivity|]. repeat split; exists [2]; repeat split; reflexivity.
Qed.
Example C127_shared_calls : feed_obj (fun d => d) shared 3 0 = Some ([PArray 2; PArray 1; PInt 7; PArray 1; PInt 7], None).
Proof. reflexivity. Qed.
Print Assumptions C127_tree_partial. Print Assumptions C127_written_partial. Print Assumptions C127_never_written_partial. Print Assumptions C127_refuted. Print Assumptions C127_any_cycle_refuted.
