(** Proofs about the error objects of the Python binding. *)
From Coq Require Import Lia ZifyBool.
From Verif Require Import Base Value Text M_Python M_PyRegistry M_Netcat M_PyErrors S_PyErrors L_Base L_Text L_Netcat.

Lemma refs_app : forall a b x, references (a ++ b) x = references a x + references b x.
Proof. intros. unfold references. rewrite count_occ_app. lia. Qed.

Definition held_now (k : ekind) (o : eobj) : list eobject := (if has_code k then pointer (e_code o) else []) ++ pointer (e_message o) ++ pointer (e_method o).
Definition bal (o : eobj) (x : eobject) : Z := references (e_taken o) x - references (e_given o) x.
Definition none_lost (k : ekind) (d : eaction) (x : eobject) : Z := if bad_init k d then references [E_none] x else 0.

Lemma act_bal : forall k o d x, bal (e_act k o d) x = bal o x + references (held_now k (e_act k o d)) x - references (held_now k o) x + references (replaced_by k o d) x - none_lost k d x.
Proof.
  intros k [c m r t g] d x. destruct d as [named args|a v|a].
  - destruct named.
    + cbn [e_act e_init fst]. unfold replaced_by, none_lost. cbn [good_init bad_init]. change (references [] x) with 0. lia.
    + destruct k; destruct args as [|a1 [|a2 [|a3 [|a4 l]]]]; cbn [e_act e_init fst has_code]; unfold replaced_by, none_lost, bal, held_now;
        cbn [good_init bad_init right_count negb has_code e_taken e_given e_code e_message e_method pointer]; rewrite ?refs_app; cbn [app pointer];
        repeat match goal with |- context [references (?u :: ?v :: ?l) x] => change (references (u :: v :: l) x) with (references ([u] ++ v :: l) x); rewrite refs_app end; lia.
  - cbn [e_act]. unfold replaced_by, none_lost, good_init, bad_init. change (references [] x) with 0.
    destruct k, a; cbn [has_attr has_code]; unfold bal, held_now, e_put, e_get; cbn [has_code e_taken e_given e_code e_message e_method pointer]; rewrite ?refs_app; cbn [pointer]; try lia; change (references [] x) with 0; lia.
  - cbn [e_act]. unfold replaced_by, none_lost, good_init, bad_init. change (references [] x) with 0.
    destruct k, a; cbn [has_attr has_code]; unfold bal, held_now, e_put, e_get; cbn [has_code e_taken e_given e_code e_message e_method pointer]; rewrite ?refs_app; cbn [pointer]; change (references [] x) with 0; lia.
Qed.

Lemma run_bal : forall k l o x, bal (fold_left (e_act k) l o) x - references (held_now k (fold_left (e_act k) l o)) x =
  bal o x - references (held_now k o) x + references (overwritten k o l) x - bad_inits k l * references [E_none] x.
Proof.
  intros k l. induction l as [|d l IH]; intros o x.
  - cbn [fold_left overwritten]. change (references [] x) with 0. unfold bad_inits. cbn [filter length]. lia.
  - cbn [fold_left overwritten]. rewrite IH, refs_app, act_bal. unfold bad_inits, none_lost. cbn [filter]. destruct (bad_init k d); cbn [length]; lia.
Qed.

Lemma dealloc_bal : forall k o x, bal (e_dealloc k o) x = bal o x - references (held_now k o) x.
Proof.
  intros k [c m r t g] x. unfold e_dealloc, held_now. destruct k; cbn [has_code]; unfold e_put, e_get, bal; cbn [e_taken e_given e_code e_message e_method pointer]; rewrite ?refs_app; change (references [] x) with 0; lia.
Qed.

Lemma kept_exact : forall k l x, kept k l x = references (overwritten k e_new l) x - bad_inits k l * references [E_none] x.
Proof.
  intros k l x. change (kept k l x) with (bal (e_dealloc k (e_run k l)) x). rewrite dealloc_bal. unfold e_run. rewrite run_bal.
  unfold bal, held_now. cbn [e_new e_taken e_given e_code e_message e_method pointer]. destruct (has_code k); cbn [app]; change (references [] x) with 0; lia.
Qed.

(** ** Texts *)
Lemma careful_method : forall k l, Forall (careful k) l -> match e_method (e_run k l) with None => True | Some r => method_or_none r end.
Proof.
  intros k l. unfold e_run. assert (S: match e_method e_new with None => True | Some r => method_or_none r end) by exact I. revert S. generalize e_new.
  induction l as [|d l IH]; intros o S F; [exact S|]. cbn [fold_left]. inversion F as [|? ? C F' E]; subst. apply IH; [|exact F']. clear IH F F'.
  destruct d as [named args|a v|a]; cbn [e_act].
  - unfold e_init. destruct named; [exact S|]. cbn [careful] in C.
    destruct k; destruct args as [|a1 [|a2 [|a3 [|a4 q]]]]; cbn; auto; eapply C; constructor.
  - destruct (has_attr k a); [|exact S]. destruct a; cbn; auto.
  - destruct (has_attr k a); [|exact S]. destruct a; cbn; auto.
Qed.

Lemma colon_cut : forall (a b x y : list Z), ~ In 58 a -> ~ In 58 b -> a ++ 58 :: x = b ++ 58 :: y -> a = b /\ x = y.
Proof. intros. eapply cut_at; eauto. Qed.

Lemma plain_parts : forall k n m, plain_text k n m = (ustr "<fastrpc." ++ ename k) ++ 58 :: 32 :: (if has_code k then udec n ++ 44 :: 32 :: m else m) ++ [62].
Proof.
  intros k n m. destruct k; unfold plain_text, ename, has_code.
  - change (ustr "<fastrpc.Fault: ") with ((ustr "<fastrpc." ++ ustr "Fault") ++ [58; 32]). change (ustr ", ") with [44; 32]. change (ustr ">") with [62]. rewrite <- !app_assoc. cbn [app]. rewrite <- ?app_assoc. cbn [app]. reflexivity.
  - change (ustr "<fastrpc.ProtocolError: ") with ((ustr "<fastrpc." ++ ustr "ProtocolError") ++ [58; 32]). change (ustr ", ") with [44; 32]. change (ustr ">") with [62]. rewrite <- !app_assoc. cbn [app]. rewrite <- ?app_assoc. cbn [app]. reflexivity.
  - change (ustr "<fastrpc.ResponseError: ") with ((ustr "<fastrpc." ++ ustr "ResponseError") ++ [58; 32]). change (ustr ">") with [62]. rewrite <- !app_assoc. cbn [app]. reflexivity.
Qed.

Lemma plain_inj : forall k1 n1 m1 k2 n2 m2, plain_text k1 n1 m1 = plain_text k2 n2 m2 -> k1 = k2 /\ (has_code k1 = true -> n1 = n2) /\ m1 = m2.
Proof.
  intros k1 n1 m1 k2 n2 m2 E. rewrite !plain_parts in E. apply colon_cut in E.
  2,3: match goal with |- ~ In 58 (_ ++ ename ?k) => destruct k; vm_compute; intuition discriminate end.
  destruct E as (N & E).
  assert (K: k1 = k2). { destruct k1, k2; try reflexivity; vm_compute in N; discriminate N. }
  subst k2. split; [reflexivity|]. injection E as E. apply app_inv_tail in E. destruct (has_code k1).
  - apply udec_cut in E; [|intros [H|H]; lia|intros [H|H]; lia]. destruct E as (-> & _ & E). injection E as ->. auto.
  - subst. split; [discriminate|reflexivity].
Qed.
