(** C118: who deletes the method objects given to a registry. *)
From Coq Require Import Lia Permutation.
From Verif Require Import Base Value M_Owner S_Owner S_Events S_Value L_Base L_TreeBuilder L_Dup L_Owner.

(** For every history, of its own methods and those of the program: what is given is deleted as often as it was given, but for the
    methods replaced and the default method and the method for HEAD given last, which are lost. *)
Theorem C118_balance : forall introspection a b c d l, let given := own_system introspection a b c d ++ l in
  Permutation (objects given) (destroyed (owns given) ++ replaced given ++ last_ones given).
Proof.
  intros introspection a b c d l given. eapply perm_trans; [apply conserved|]. destruct (owns_holds given) as (_ & _ & D & H). unfold held, destroyed. rewrite <- !app_assoc. do 2 apply Permutation_app_head.
  rewrite app_assoc. eapply perm_trans; [apply Permutation_app_comm|]. apply Permutation_app_head. rewrite D, H. apply Permutation_sym, last_ones_both.
Qed.
Print Assumptions C118_balance.

(** An object given once is deleted exactly once if its name is not given again and it is not the default method or the method for HEAD
    given last. *)
Theorem C118_once_partial : forall introspection a b c d l m, let given := own_system introspection a b c d ++ l in
  count_occ Z.eq_dec (objects given) m = 1%nat -> ~ In m (replaced given) -> ~ In m (last_ones given) -> count_occ Z.eq_dec (destroyed (owns given)) m = 1%nat.
Proof.
  intros introspection a b c d l m given C R L. pose proof (proj1 (Permutation_count_occ Z.eq_dec _ _) (C118_balance introspection a b c d l) m) as P. fold given in P.
  rewrite C, !count_occ_app in P. apply (count_occ_not_In Z.eq_dec) in R. apply (count_occ_not_In Z.eq_dec) in L. lia.
Qed.
Print Assumptions C118_once_partial.

(** If no object is given twice, none is deleted twice, and none is used after it was deleted. *)
Theorem C118_alive_partial : forall introspection a b c d l, let given := own_system introspection a b c d ++ l in
  NoDup (objects given) ->
  NoDup (destroyed (owns given)) /\
  (forall name m, used (owns given) name = Some m -> ~ In m (ow_deleted (owns given))) /\
  (forall m, ow_head (owns given) = Some m -> ~ In m (ow_deleted (owns given))).
Proof.
  intros introspection a b c d l given N. pose proof (Permutation_NoDup (conserved given) N) as Q. unfold held in Q. rewrite <- !app_assoc in Q.
  assert (A: forall (m : Z) x y, NoDup (x ++ y) -> In m y -> ~ In m x).
  { intros m x y ND I J. apply in_split in J. destruct J as (p & q & ->). rewrite <- app_assoc in ND. apply NoDup_remove_2 in ND. apply ND. rewrite !in_app_iff. tauto. }
  split; [|split].
  - unfold destroyed. rewrite app_assoc in Q. clear - Q. revert Q. generalize (ow_deleted (owns given) ++ map snd (ow_methods (owns given))). intros x. generalize (pointed (ow_default (owns given)) ++ pointed (ow_head (owns given)) ++ replaced given).
    intros y Q. induction x as [|z x IH]; [constructor|]. cbn [app] in Q. inversion Q; subst. constructor; [intro I; apply H1; rewrite in_app_iff; tauto|apply IH; assumption].
  - intros name m U. eapply A; [exact Q|]. unfold used in U. rewrite !in_app_iff. destruct (map_get name (ow_methods (owns given))) as [x|] eqn:G.
    + injection U as ->. left. clear - G. revert G. generalize (ow_methods (owns given)). intro ms. induction ms as [|[k y] r IH]; intro G; [discriminate|]. cbn [map_get] in G. cbn [map snd].
      destruct (bytes_cmp name k); [left; injection G as ->; reflexivity|right; apply IH; exact G|right; apply IH; exact G].
    + rewrite U. right. left. left. reflexivity.
  - intros m U. eapply A; [exact Q|]. rewrite !in_app_iff, U. right. right. left. left. reflexivity.
Qed.
Print Assumptions C118_alive_partial.

(** Refuted: whatever the name, a method that is replaced is never deleted; nor is a default method or a method for HEAD that is not replaced. *)
Theorem C118_replaced_refuted : forall name old new, old <> new -> ~ In old (destroyed (owns [G_method name old; G_method name new])).
Proof.
  intros name old new N I. unfold owns, destroyed in I. cbn [fold_left own_step ow_methods ow_deleted map_set] in I. rewrite bytes_cmp_refl in I. cbn in I. destruct I as [->|[]]. congruence.
Qed.
Print Assumptions C118_replaced_refuted.
Theorem C118_default_refuted : forall d h, destroyed (owns [G_default (Some d); G_head (Some h)]) = [].
Proof. reflexivity. Qed.
Print Assumptions C118_default_refuted.
(** Refuted: one object under two names is deleted twice; the default method given a second time is deleted at once, and used. *)
Theorem C118_two_names_refuted : forall a b m, a <> b -> destroyed (owns [G_method a m; G_method b m]) = [m; m].
Proof.
  intros a b m N. unfold owns, destroyed. cbn [fold_left own_step ow_methods ow_deleted map_set]. destruct (bytes_cmp b a) eqn:E; [|reflexivity|reflexivity]. apply bytes_cmp_eq in E. congruence.
Qed.
Print Assumptions C118_two_names_refuted.
Theorem C118_default_again_refuted : forall d name, let o := owns [G_default (Some d); G_default (Some d)] in used o name = Some d /\ In d (ow_deleted o).
Proof. intros d name. split; [reflexivity|left; reflexivity]. Qed.
Print Assumptions C118_default_again_refuted.

Example C118_sample : let given := own_system true 1 2 3 4 ++ [G_method (str "add") 5; G_default (Some 6); G_method (str "sub") 7; G_method (str "add") 8; G_default (Some 9)] in
  NoDup (objects given) /\ count_occ Z.eq_dec (objects given) 7 = 1%nat /\ ~ In 7 (replaced given) /\ ~ In 7 (last_ones given) /\
  destroyed (owns given) = [6; 8; 7; 1; 2; 3; 4] /\ replaced given = [5] /\ last_ones given = [9] /\ used (owns given) (str "mul") = Some 9.
Proof.
  cbv zeta. split; [|split; [|split; [|split; [|split; [|split; [|split]]]]]]; try reflexivity.
  - vm_compute. repeat constructor; cbn [In]; intuition discriminate.
  - vm_compute. intuition discriminate.
  - vm_compute. intuition discriminate.
Qed.
