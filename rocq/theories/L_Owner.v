(** Lemmas: who deletes the method objects given to a registry. *)
From Coq Require Import Lia Permutation.
From Verif Require Import Base Value M_Owner S_Owner S_Events S_Value L_Base L_TreeBuilder L_Dup.

Fixpoint last_method (n : bytes) (l : list given_object) : option Z :=
  match l with
  | [] => None
  | G_method k m :: r => match last_method n r with Some x => Some x | None => if bytes_eqb k n then Some m else None end
  | _ :: r => last_method n r
  end.
Fixpoint last_default (l : list given_object) : option Z :=
  match l with [] => None | G_default d :: r => if other_default r then last_default r else d | _ :: r => last_default r end.
Fixpoint last_head (l : list given_object) : option Z :=
  match l with [] => None | G_head d :: r => if other_head r then last_head r else d | _ :: r => last_head r end.

Lemma again_app : forall n a b, again n (a ++ b) = again n a || again n b.
Proof. intros. apply existsb_app. Qed.
Lemma other_default_app : forall a b, other_default (a ++ b) = other_default a || other_default b.
Proof. intros. apply existsb_app. Qed.
Lemma other_head_app : forall a b, other_head (a ++ b) = other_head a || other_head b.
Proof. intros. apply existsb_app. Qed.

Lemma again_last : forall n l, again n l = match last_method n l with Some _ => true | None => false end.
Proof.
  intros n. induction l as [|[k m|d|h] l IH]; [reflexivity| | |]; [|exact IH|exact IH].
  change (again n (G_method k m :: l)) with (bytes_eqb k n || again n l). cbn [last_method]. rewrite IH. destruct (last_method n l); [apply orb_true_r|]. rewrite orb_false_r. destruct (bytes_eqb k n); reflexivity.
Qed.

Lemma last_method_snoc : forall n l g, last_method n (l ++ [g]) = match g with G_method k m => if bytes_eqb k n then Some m else last_method n l | _ => last_method n l end.
Proof.
  intros n l g. induction l as [|x l IH].
  - destruct g; reflexivity.
  - cbn [app last_method]. rewrite IH. destruct x as [k m|d|h]; destruct g as [k' m'|d'|h']; try reflexivity. destruct (bytes_eqb k' n); reflexivity.
Qed.
Lemma last_default_snoc : forall l g, last_default (l ++ [g]) = match g with G_default d => d | _ => last_default l end.
Proof.
  intros l g. induction l as [|x l IH]; [destruct g; reflexivity|]. cbn [app last_default]. rewrite IH, other_default_app.
  destruct x; try reflexivity. destruct g; cbn [other_default existsb]; rewrite ?orb_false_r, ?orb_true_r; reflexivity.
Qed.
Lemma last_head_snoc : forall l g, last_head (l ++ [g]) = match g with G_head d => d | _ => last_head l end.
Proof.
  intros l g. induction l as [|x l IH]; [destruct g; reflexivity|]. cbn [app last_head]. rewrite IH, other_head_app.
  destruct x; try reflexivity. destruct g; cbn [other_head existsb]; rewrite ?orb_false_r, ?orb_true_r; reflexivity.
Qed.

Lemma owns_snoc : forall l g, owns (l ++ [g]) = own_step (owns l) g.
Proof. intros. unfold owns. rewrite fold_left_app. reflexivity. Qed.

Lemma beqb_sym : forall a b, bytes_eqb a b = bytes_eqb b a.
Proof. intros a b. destruct (bytes_eqb a b) eqn:E; symmetry; [apply bytes_eqb_eq in E; subst; apply bytes_eqb_refl|]. destruct (bytes_eqb b a) eqn:F; [|reflexivity]. apply bytes_eqb_eq in F. subst. rewrite bytes_eqb_refl in E. discriminate. Qed.

(** What the registry holds. *)
Lemma owns_holds : forall l, increasing (ow_methods (owns l)) /\ (forall n, map_get n (ow_methods (owns l)) = last_method n l) /\
  ow_default (owns l) = last_default l /\ ow_head (owns l) = last_head l.
Proof.
  induction l as [|g l (I & M & D & H)] using rev_ind; [repeat split|]. rewrite owns_snoc, last_default_snoc, last_head_snoc.
  destruct g as [n m|d|h]; cbn [own_step ow_methods ow_default ow_head]; (split; [first [apply map_set_increasing; exact I|exact I]|]); (split; [|split; auto]);
    intro k; rewrite last_method_snoc; auto. rewrite map_get_set by exact I. rewrite M, beqb_sym. reflexivity.
Qed.

Lemma map_set_perm : forall k (x : Z) m, increasing m -> Permutation (map snd (map_set k x m) ++ pointed (map_get k m)) (x :: map snd m).
Proof.
  intros k x. induction m as [|[k0 y] m IH]; intro I; [apply Permutation_refl|]. cbn [increasing] in I. destruct I as [I1 I2].
  cbn [map_set map_get]. destruct (bytes_cmp k k0) eqn:E.
  - cbn [map snd pointed app]. apply perm_skip. apply Permutation_sym, Permutation_cons_append.
  - assert (G: map_get k m = None).
    { clear IH. assert (I': forall k' z, In (k', z) m -> bytes_cmp k k' = Lt) by (intros k' z H; eapply bytes_cmp_lt_trans; [exact E|eapply I1; exact H]). clear - I'.
      induction m as [|[k1 z] m IH]; [reflexivity|]. cbn [map_get]. rewrite (I' k1 z) by (left; reflexivity). apply IH. intros. eapply I'. right. eassumption. }
    rewrite G. cbn [pointed map snd app]. rewrite app_nil_r. apply Permutation_refl.
  - cbn [map snd app]. eapply perm_trans; [apply perm_skip, IH, I2|]. apply perm_swap.
Qed.

Lemma replaced_snoc : forall l g, Permutation (replaced (l ++ [g])) (replaced l ++ match g with G_method n _ => pointed (last_method n l) | _ => [] end).
Proof.
  intros l g. induction l as [|x l IH]; [destruct g; apply Permutation_refl|]. cbn [app replaced last_method].
  destruct x as [k m|d|h]; [|destruct g; exact IH|destruct g; exact IH]. rewrite again_app.
  destruct (again k l) eqn:A.
  - cbn [orb]. eapply perm_trans; [apply perm_skip, IH|]. cbn [app]. apply perm_skip, Permutation_app_head. destruct g as [n m'| |]; try apply Permutation_refl.
    destruct (last_method n l) eqn:L; [apply Permutation_refl|]. destruct (bytes_eqb k n) eqn:E; [|apply Permutation_refl]. apply bytes_eqb_eq in E. subst. rewrite again_last, L in A. discriminate.
  - cbn [orb]. destruct g as [n m'|d|h]; cbn [again existsb orb]; [|exact IH|exact IH]. rewrite orb_false_r. destruct (bytes_eqb n k) eqn:E.
    + apply bytes_eqb_eq in E. subst. rewrite again_last in A. destruct (last_method k l) eqn:L; [discriminate|]. rewrite bytes_eqb_refl. cbn [pointed] in *. rewrite app_nil_r in IH.
      eapply perm_trans; [apply perm_skip, IH|]. apply Permutation_cons_append.
    + rewrite (beqb_sym k n), E. destruct (last_method n l); exact IH.
Qed.

Lemma last_ones_both : forall l, Permutation (last_ones l) (pointed (last_default l) ++ pointed (last_head l)).
Proof.
  assert (ND: forall l, other_default l = false -> last_default l = None).
  { induction l as [|[n m|d|h] l IH]; intro H; [reflexivity| | |]; cbn [last_default]; try (apply IH; exact H). discriminate H. }
  assert (NH: forall l, other_head l = false -> last_head l = None).
  { induction l as [|[n m|d|h] l IH]; intro H; [reflexivity| | |]; cbn [last_head]; try (apply IH; exact H). discriminate H. }
  induction l as [|[n m|d|h] l IH]; [apply Permutation_refl|exact IH| |].
  - cbn [last_ones last_default last_head]. destruct (other_default l) eqn:O; [destruct d; exact IH|]. rewrite (ND _ O) in IH. destruct d; [|exact IH]. cbn [pointed app] in *. apply perm_skip. exact IH.
  - cbn [last_ones last_default last_head]. destruct (other_head l) eqn:O; [destruct h; exact IH|]. rewrite (NH _ O) in IH. cbn [pointed] in IH. rewrite app_nil_r in IH. destruct h; cbn [pointed].
    + eapply perm_trans; [apply perm_skip, IH|]. apply Permutation_cons_append.
    + rewrite app_nil_r. exact IH.
Qed.

Definition held (o : owner) : list Z := ow_deleted o ++ map snd (ow_methods o) ++ pointed (ow_default o) ++ pointed (ow_head o).
Lemma conserved : forall l, Permutation (objects l) (held (owns l) ++ replaced l).
Proof.
  induction l as [|g l IH] using rev_ind; [apply Permutation_refl|]. rewrite owns_snoc. unfold objects in *. rewrite flat_map_app. cbn [flat_map]. rewrite app_nil_r.
  destruct (owns_holds l) as (I & M & _ & _).
  eapply perm_trans; [apply Permutation_app_tail, IH|]. eapply perm_trans; [|apply Permutation_app_head, Permutation_sym, replaced_snoc].
  unfold held. destruct g as [n m|d|h]; cbn [own_step ow_deleted ow_methods ow_default ow_head].
  - pose proof (map_set_perm n m (ow_methods (owns l)) I) as P. rewrite M in P. set (X := map snd (map_set n m (ow_methods (owns l)))) in *. set (Y := pointed (last_method n l)) in *.
    set (K := map snd (ow_methods (owns l))) in *. set (D := pointed (ow_default (owns l))). set (H := pointed (ow_head (owns l))). set (Q := ow_deleted (owns l)). set (R := replaced l).
    apply perm_trans with ((m :: K) ++ (Q ++ D ++ H ++ R)).
    + apply perm_trans with (m :: K ++ Q ++ D ++ H ++ R); [|apply Permutation_refl]. eapply perm_trans; [apply Permutation_sym, Permutation_cons_append|]. apply perm_skip.
      rewrite <- !app_assoc. rewrite !app_assoc. do 3 apply Permutation_app_tail. apply Permutation_app_comm.
    + eapply perm_trans; [apply Permutation_app_tail, Permutation_sym, P|]. rewrite <- !app_assoc.
      apply perm_trans with (X ++ Q ++ D ++ H ++ R ++ Y).
      * apply Permutation_app_head. eapply perm_trans; [apply Permutation_app_comm|]. rewrite <- !app_assoc. apply Permutation_refl.
      * rewrite !app_assoc. do 4 apply Permutation_app_tail. apply Permutation_app_comm.
  - rewrite app_nil_r. set (K := map snd (ow_methods (owns l))) in *. set (D := pointed (ow_default (owns l))). set (H := pointed (ow_head (owns l))). set (Q := ow_deleted (owns l)). set (R := replaced l).
    replace (match d with Some d => [d] | None => [] end) with (pointed d) by reflexivity. set (N := pointed d). rewrite <- !app_assoc. apply Permutation_app_head.
    apply perm_trans with (D ++ K ++ H ++ R ++ N); [rewrite !app_assoc; do 3 apply Permutation_app_tail; apply Permutation_app_comm|]. do 2 apply Permutation_app_head.
    rewrite (app_assoc H R N). eapply perm_trans; [apply Permutation_app_comm|]. apply Permutation_refl.
  - rewrite app_nil_r. set (K := map snd (ow_methods (owns l))) in *. set (D := pointed (ow_default (owns l))). set (H := pointed (ow_head (owns l))). set (Q := ow_deleted (owns l)). set (R := replaced l).
    replace (match h with Some d => [d] | None => [] end) with (pointed h) by reflexivity. set (N := pointed h). rewrite <- !app_assoc. apply Permutation_app_head.
    apply perm_trans with (H ++ K ++ D ++ R ++ N).
    + rewrite (app_assoc K D), (app_assoc K D). rewrite !app_assoc. do 2 apply Permutation_app_tail. eapply perm_trans; [apply Permutation_app_comm|]. rewrite app_assoc. apply Permutation_refl.
    + do 3 apply Permutation_app_head. apply Permutation_app_comm.
Qed.
