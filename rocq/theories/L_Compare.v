(** Value comparison is a total preorder on comparable values. *)
From Coq Require Import Lia.
From Verif Require Import Base Value M_Values S_Compare L_Base.
Ltac Zify.zify_post_hook ::= Z.div_mod_to_equations.

(** A comparison function that is a total preorder. *)
Record good {A} (P : A -> Prop) (c : A -> A -> comparison) : Prop := {
  g_anti : forall x y, P x -> P y -> c y x = CompOpp (c x y);
  g_lt : forall x y z, P x -> P y -> P z -> c x y = Lt -> c y z = Lt -> c x z = Lt;
  g_eq : forall x y z, P x -> P y -> P z -> c x y = Eq -> c x z = c y z
}.

Lemma good_refl : forall A P (c : A -> A -> comparison), good P c -> forall x, P x -> c x x = Eq.
Proof. intros A P c G x H. pose proof (g_anti P c G x x H H). destruct (c x x); cbn in *; congruence. Qed.

(** From a comparison by keys. *)
Lemma good_key : forall A (P : A -> Prop) (lt : A -> A -> bool) (key : A -> Z),
  (forall x y, P x -> P y -> lt x y = (key x <? key y)) -> good P (cmp_by lt).
Proof.
  intros A P lt key H. unfold cmp_by. split.
  - intros x y X Y. rewrite !H by auto. destruct (key x <? key y) eqn:A1, (key y <? key x) eqn:A2; try reflexivity. lia.
  - intros x y z X Y Zz. rewrite !H by auto. intros A1 A2.
    destruct (key x <? key y) eqn:B1, (key y <? key z) eqn:B2, (key x <? key z) eqn:B3, (key y <? key x) eqn:B4, (key z <? key y) eqn:B5;
      try reflexivity; try discriminate; lia.
  - intros x y z X Y Zz. rewrite !H by auto. intros A1.
    destruct (key x <? key y) eqn:B1, (key y <? key x) eqn:B2; try discriminate. replace (key x) with (key y) by lia. reflexivity.
Qed.

Lemma bytes_cmp_by : forall x y, cmp_by bytes_lt x y = bytes_cmp x y.
Proof.
  intros x y. unfold cmp_by, bytes_lt. rewrite (bytes_cmp_antisym x y). destruct (bytes_cmp x y); reflexivity.
Qed.

Lemma good_bytes : good (fun _ => True) bytes_cmp.
Proof.
  split.
  - intros. apply bytes_cmp_antisym.
  - intros x y z _ _ _. apply bytes_cmp_lt_trans.
  - intros x y z _ _ _ E. apply bytes_cmp_eq in E. subst. reflexivity.
Qed.

Lemma nan_spec : forall d, in_u64 d -> (dbl_nan d = true <-> is_nan d).
Proof.
  intros d H. unfold dbl_nan, is_nan. unfold in_u64 in H. rewrite Z.ltb_lt.
  change (2 ^ 63) with (2 ^ 11 * 2 ^ 52). rewrite Z.mul_comm.
  rewrite Z.rem_mul_r by lia. change (2 ^ 11 - 1) with 2047. change (2 ^ 52) with 4503599627370496 in *. change (2 ^ 11) with 2048. lia.
Qed.

Definition dbl_good (d : Z) : Prop := in_u64 d /\ ~ is_nan d.

Lemma good_dbl : good dbl_good (cmp_by dbl_lt).
Proof.
  apply good_key with (key := dbl_key). intros x y [X1 X2] [Y1 Y2]. unfold dbl_lt.
  destruct (dbl_nan x) eqn:E; [apply nan_spec in E; auto; contradiction|].
  destruct (dbl_nan y) eqn:E2; [apply nan_spec in E2; auto; contradiction|]. reflexivity.
Qed.

Lemma good_Z : good (fun _ => True) (cmp_by Z.ltb).
Proof. apply good_key with (key := fun x => x). reflexivity. Qed.

Lemma good_bool : good (fun _ => True) (cmp_by bool_lt).
Proof. apply good_key with (key := fun b : bool => if b then 1 else 0). intros [|] [|] _ _; reflexivity. Qed.

(** The loops. *)
Definition cmp_members := fix go (x y : list (bytes * value)) : res comparison :=
             match x, y with
             | (k, v) :: x', (k', w) :: y' =>
                 match bytes_cmp k k' with
                 | Eq => bind (compare v w) (fun c => match c with Eq => go x' y' | c => Ok c end)
                 | c => Ok c
                 end
             | _ :: _, [] => Ok Gt
             | [], _ :: _ => Ok Lt
             | [], [] => Ok Eq
             end.
Definition cmp_items := fix go (x y : list value) : res comparison :=
             match x, y with
             | v :: x', w :: y' =>
                 bind (compare v w) (fun c => match c with Eq => go x' y' | c => Ok c end)
             | _ :: _, [] => Ok Gt
             | [], _ :: _ => Ok Lt
             | [], [] => Ok Eq
             end.

Lemma compare_struct : forall x y, compare (VStruct x) (VStruct y) = cmp_members x y.
Proof. reflexivity. Qed.
Lemma compare_array : forall x y, compare (VArray x) (VArray y) = cmp_items x y.
Proof. reflexivity. Qed.

Definition cmp_tags (a b : value) : comparison := cmp_by Z.ltb (type_tag a) (type_tag b).

Lemma compare_tags : forall a b, type_tag a <> type_tag b -> compare a b = Ok (cmp_tags a b).
Proof.
  intros a b N. unfold cmp_tags.
  assert (cmp_by Z.ltb (type_tag a) (type_tag b) <> Eq).
  { unfold cmp_by. destruct (type_tag a <? type_tag b) eqn:E1; [discriminate|]. destruct (type_tag b <? type_tag a) eqn:E2; [discriminate|]. lia. }
  destruct a; cbn [compare]; destruct (cmp_by Z.ltb _ (type_tag b)); congruence.
Qed.

(** Comparable lists of members and items. *)
Definition cmps := fix all (l : list value) : Prop := match l with [] => True | x :: r => comparable x /\ all r end.
Definition cmpm := fix all (l : list (bytes * value)) : Prop :=
         match l with [] => True | (_, x) :: r => comparable x /\ all r end.

(** Defined on comparable values. *)
Lemma compare_defined : forall a b, comparable a -> comparable b -> exists c, compare a b = Ok c.
Proof.
  induction a using value_nested_ind; intros w CA CB; try contradiction;
    destruct w; try contradiction; try (eexists; reflexivity).
  - rewrite compare_struct. cbn [comparable] in CA, CB. change (cmpm m) in CA. change (cmpm m0) in CB.
    revert m0 CB. induction H as [|[k x] m Hx F IH]; intros [|[k' y] n] CB; cbn [cmp_members]; try (eexists; reflexivity).
    destruct CA as [CA1 CA2], CB as [CB1 CB2]. destruct (bytes_cmp k k'); try (eexists; reflexivity).
    destruct (Hx y CA1 CB1) as [c E]. cbn [snd] in E. rewrite E. cbn [bind]. destruct c; try (eexists; reflexivity). apply IH; auto.
  - rewrite compare_array. cbn [comparable] in CA, CB. change (cmps l) in CA. change (cmps l0) in CB.
    revert l0 CB. induction H as [|x m Hx F IH]; intros [|y n] CB; cbn [cmp_items]; try (eexists; reflexivity).
    destruct CA as [CA1 CA2], CB as [CB1 CB2].
    destruct (Hx y CA1 CB1) as [c E]. rewrite E. cbn [bind]. destruct c; try (eexists; reflexivity). apply IH; auto.
Qed.

(** The comparison as a total function. *)
Definition cmpv (a b : value) : comparison := match compare a b with Ok c => c | _ => Eq end.

Lemma cmpv_ok : forall a b, comparable a -> comparable b -> compare a b = Ok (cmpv a b).
Proof. intros a b A B. destruct (compare_defined a b A B) as [c E]. unfold cmpv. rewrite E. reflexivity. Qed.

Definition cmpv_items := fix go (x y : list value) : comparison :=
             match x, y with
             | v :: x', w :: y' => match cmpv v w with Eq => go x' y' | c => c end
             | _ :: _, [] => Gt
             | [], _ :: _ => Lt
             | [], [] => Eq
             end.
Definition cmpv_members := fix go (x y : list (bytes * value)) : comparison :=
             match x, y with
             | (k, v) :: x', (k', w) :: y' =>
                 match bytes_cmp k k' with
                 | Eq => match cmpv v w with Eq => go x' y' | c => c end
                 | c => c
                 end
             | _ :: _, [] => Gt
             | [], _ :: _ => Lt
             | [], [] => Eq
             end.

Lemma cmpv_array : forall x y, cmps x -> cmps y -> cmpv (VArray x) (VArray y) = cmpv_items x y.
Proof.
  unfold cmpv at 1. intros x y. rewrite compare_array. revert y.
  induction x as [|v x IH]; intros [|w y] X Y; cbn [cmp_items cmpv_items]; auto. destruct X as [X1 X2], Y as [Y1 Y2].
  rewrite cmpv_ok by auto. cbn [bind]. destruct (cmpv v w); auto.
Qed.
Lemma cmpv_struct : forall x y, cmpm x -> cmpm y -> cmpv (VStruct x) (VStruct y) = cmpv_members x y.
Proof.
  unfold cmpv at 1. intros x y. rewrite compare_struct. revert y.
  induction x as [|[k v] x IH]; intros [|[k' w] y] X Y; cbn [cmp_members cmpv_members]; auto. destruct X as [X1 X2], Y as [Y1 Y2].
  destruct (bytes_cmp k k'); auto. rewrite cmpv_ok by auto. cbn [bind]. destruct (cmpv v w); auto.
Qed.

Lemma cmpv_tags : forall a b, type_tag a <> type_tag b -> cmpv a b = cmp_tags a b.
Proof. intros. unfold cmpv. rewrite compare_tags by auto. reflexivity. Qed.

(** Three-way facts packed for one induction: antisymmetry, and both forms of transitivity. *)
Definition anti (a : value) : Prop := forall b, comparable a -> comparable b -> cmpv b a = CompOpp (cmpv a b).

Lemma cmpv_anti : forall a, anti a.
Proof.
  induction a using value_nested_ind; intros b' CA CB; try contradiction; destruct b'; try contradiction; try reflexivity.
  - apply (g_anti _ _ good_Z z z0); exact I.
  - apply (g_anti _ _ good_bool b b0); exact I.
  - apply (g_anti _ _ good_dbl z bits CA CB).
  - unfold cmpv. cbn. rewrite !bytes_cmp_by. apply bytes_cmp_antisym.
  - unfold cmpv. cbn. rewrite !bytes_cmp_by. apply bytes_cmp_antisym.
  - apply (g_anti _ _ good_Z (dt_unix d) (dt_unix d0)); exact I.
  - change (cmpm m) in CA. change (cmpm m0) in CB. rewrite !cmpv_struct by auto.
    revert m0 CB. induction H as [|[k x] m Hx F IH]; intros [|[k' y] n] CB; cbn [cmpv_members]; auto.
    destruct CA as [CA1 CA2], CB as [CB1 CB2]. rewrite (bytes_cmp_antisym k k'). destruct (bytes_cmp k k'); cbn [CompOpp]; auto.
    cbn [snd] in Hx. rewrite (Hx y CA1 CB1). destruct (cmpv x y); cbn [CompOpp]; auto.
  - change (cmps l) in CA. change (cmps l0) in CB. rewrite !cmpv_array by auto.
    revert l0 CB. induction H as [|x m Hx F IH]; intros [|y n] CB; cbn [cmpv_items]; auto.
    destruct CA as [CA1 CA2], CB as [CB1 CB2].
    rewrite (Hx y CA1 CB1). destruct (cmpv x y); cbn [CompOpp]; auto.
Qed.

Lemma tag_trans : forall a b c, type_tag a <> type_tag b \/ type_tag b <> type_tag c ->
  (cmp_tags a b = Lt \/ cmp_tags a b = Eq) -> (cmp_tags b c = Lt \/ cmp_tags b c = Eq) ->
  type_tag a <> type_tag c /\ cmp_tags a c = Lt.
Proof.
  intros a b c. unfold cmp_tags, cmp_by. intros D A B.
  destruct (type_tag a <? type_tag b) eqn:E1, (type_tag b <? type_tag a) eqn:E2, (type_tag b <? type_tag c) eqn:E3,
    (type_tag c <? type_tag b) eqn:E4; destruct A, B; try discriminate;
    (split; [lia|]; replace (type_tag a <? type_tag c) with true by lia; reflexivity).
Qed.

Lemma tags_le : forall a b, cmpv a b <> Gt -> type_tag a <> type_tag b -> cmp_tags a b = Lt.
Proof.
  intros a b H N. rewrite cmpv_tags in H by auto. unfold cmp_tags, cmp_by in *.
  destruct (type_tag a <? type_tag b) eqn:E1; auto. destruct (type_tag b <? type_tag a) eqn:E2; [congruence|]. lia.
Qed.

(** Transitivity in one statement: [a <= b], [b <= c] give [a <= c], strictly if one of them is strict. *)
Definition le_trans (a : value) : Prop := forall b c, comparable a -> comparable b -> comparable c ->
  cmpv a b <> Gt -> cmpv b c <> Gt ->
  cmpv a c = match cmpv a b, cmpv b c with Eq, Eq => Eq | _, _ => Lt end.

Lemma good_trans : forall A P (f : A -> A -> comparison), good P f -> forall x y z, P x -> P y -> P z ->
  f x y <> Gt -> f y z <> Gt -> f x z = match f x y, f y z with Eq, Eq => Eq | _, _ => Lt end.
Proof.
  intros A P f G x y z X Y Zz N1 N2. destruct (f x y) eqn:E1; [| |congruence].
  - rewrite (g_eq _ _ G x y z X Y Zz E1). destruct (f y z); congruence.
  - destruct (f y z) eqn:E2; [| |congruence].
    + assert (E3 : f z y = Eq) by (rewrite (g_anti _ _ G y z Y Zz), E2; reflexivity).
      pose proof (g_eq _ _ G z y x Zz Y X E3) as Q. rewrite (g_anti _ _ G x z X Zz), (g_anti _ _ G x y X Y), E1 in Q.
      destruct (f x z); cbn in Q; congruence.
    + exact (g_lt _ _ G x y z X Y Zz E1 E2).
Qed.

Lemma trans_tags : forall a b c, comparable a -> comparable b -> comparable c ->
  type_tag a <> type_tag b \/ type_tag b <> type_tag c -> cmpv a b <> Gt -> cmpv b c <> Gt ->
  cmpv a c = match cmpv a b, cmpv b c with Eq, Eq => Eq | _, _ => Lt end.
Proof.
  intros a b c CA CB CC D N1 N2.
  assert (X1 : cmp_tags a b = Lt \/ cmp_tags a b = Eq).
  { destruct (Z.eq_dec (type_tag a) (type_tag b)) as [E|E]; [right|left; apply tags_le; auto].
    unfold cmp_tags. rewrite E. unfold cmp_by. rewrite Z.ltb_irrefl. reflexivity. }
  assert (X2 : cmp_tags b c = Lt \/ cmp_tags b c = Eq).
  { destruct (Z.eq_dec (type_tag b) (type_tag c)) as [E|E]; [right|left; apply tags_le; auto].
    unfold cmp_tags. rewrite E. unfold cmp_by. rewrite Z.ltb_irrefl. reflexivity. }
  destruct (tag_trans a b c D X1 X2) as [NE L]. rewrite (cmpv_tags a c NE), L.
  destruct (cmpv a b) eqn:E1; auto. destruct (cmpv b c) eqn:E2; auto.
  exfalso. destruct D as [D|D].
  - rewrite cmpv_tags in E1 by auto. pose proof (tags_le a b) as T. rewrite cmpv_tags, E1 in T by auto. discriminate T; congruence.
  - rewrite cmpv_tags in E2 by auto. pose proof (tags_le b c) as T. rewrite cmpv_tags, E2 in T by auto. discriminate T; congruence.
Qed.

Lemma cmpv_trans : forall a, le_trans a.
Proof.
  induction a using value_nested_ind; intros v w CA CB CC N1 N2; try contradiction.
  all: match goal with |- cmpv ?a _ = _ =>
    destruct (Z.eq_dec (type_tag a) (type_tag v)) as [T1|T1];
      [|apply trans_tags; auto];
    destruct (Z.eq_dec (type_tag v) (type_tag w)) as [T2|T2]; [|apply trans_tags; auto] end.
  all: destruct v; try discriminate T1; try contradiction; destruct w; try discriminate T2; try contradiction.
  - apply (good_trans _ _ _ good_Z); auto.
  - apply (good_trans _ _ _ good_bool); auto.
  - reflexivity.
  - apply (good_trans _ _ _ good_dbl); auto.
  - unfold cmpv in *. cbn in *. rewrite !bytes_cmp_by in *. apply (good_trans _ _ _ good_bytes); auto.
  - unfold cmpv in *. cbn in *. rewrite !bytes_cmp_by in *. apply (good_trans _ _ _ good_bytes); auto.
  - apply (good_trans _ _ _ good_Z (dt_unix d) (dt_unix d0) (dt_unix d1)); auto.
  - change (cmpm m) in CA. change (cmpm m0) in CB. change (cmpm m1) in CC. rewrite !cmpv_struct in * by auto. clear T1 T2.
    revert m0 m1 CB CC N1 N2. induction H as [|[k x] m Hx F IH]; intros [|[k' y] n] [|[k2 z] o] CB CC N1 N2;
      cbn [cmpv_members] in *; auto; try congruence.
    destruct CA as [CA1 CA2], CB as [CB1 CB2], CC as [CC1 CC2]. cbn [snd] in Hx.
    assert (K1 : bytes_cmp k k' <> Gt) by (intro E; rewrite E in N1; congruence).
    assert (K2 : bytes_cmp k' k2 <> Gt) by (intro E; rewrite E in N2; congruence).
    pose proof (good_trans _ _ _ good_bytes k k' k2 I I I K1 K2) as KT. rewrite KT. clear KT.
    destruct (bytes_cmp k k') eqn:E1; [|destruct (bytes_cmp k' k2) eqn:E2; try congruence; auto|congruence].
    + destruct (bytes_cmp k' k2) eqn:E2; [| |congruence].
      * assert (V1 : cmpv x y <> Gt) by (intro E; rewrite E in N1; congruence).
        assert (V2 : cmpv y z <> Gt) by (intro E; rewrite E in N2; congruence).
        rewrite (Hx y z CA1 CB1 CC1 V1 V2).
        destruct (cmpv x y) eqn:E3; [|destruct (cmpv y z) eqn:E4; [destruct (cmpv_members n o); congruence|auto|congruence]|congruence].
        destruct (cmpv y z) eqn:E4; [apply IH; auto| |congruence]. destruct (cmpv_members m n); congruence.
      * destruct (cmpv x y); [|auto|congruence]. destruct (cmpv_members m n); congruence.
  - change (cmps l) in CA. change (cmps l0) in CB. change (cmps l1) in CC. rewrite !cmpv_array in * by auto. clear T1 T2.
    revert l0 l1 CB CC N1 N2. induction H as [|x m Hx F IH]; intros [|y n] [|z o] CB CC N1 N2;
      cbn [cmpv_items] in *; auto; try congruence.
    destruct CA as [CA1 CA2], CB as [CB1 CB2], CC as [CC1 CC2].
    assert (V1 : cmpv x y <> Gt) by (intro E; rewrite E in N1; congruence).
    assert (V2 : cmpv y z <> Gt) by (intro E; rewrite E in N2; congruence).
    rewrite (Hx y z CA1 CB1 CC1 V1 V2).
    destruct (cmpv x y) eqn:E3; [|destruct (cmpv y z) eqn:E4; [destruct (cmpv_items n o); congruence|auto|congruence]|congruence].
    destruct (cmpv y z) eqn:E4; [apply IH; auto| |congruence]. destruct (cmpv_items m n); congruence.
Qed.

(** Equality. *)
Lemma cmp_by_Z_eq : forall x y, cmp_by Z.ltb x y = Eq <-> x = y.
Proof.
  intros. unfold cmp_by. destruct (x <? y) eqn:E1; [split; [discriminate|lia]|]. destruct (y <? x) eqn:E2; [split; [discriminate|lia]|].
  split; auto. lia.
Qed.

Lemma dbl_key_eq : forall a b, in_u64 a -> in_u64 b -> dbl_key a = dbl_key b <-> a = b \/ (a mod 2 ^ 63 = 0 /\ b mod 2 ^ 63 = 0).
Proof.
  intros a b A B. unfold in_u64 in *. unfold dbl_key. change (2 ^ 63) with 9223372036854775808 in *. change (2 ^ 64) with 18446744073709551616 in *.
  destruct (a <? _) eqn:E1, (b <? _) eqn:E2; lia.
Qed.

Lemma cmpv_same : forall a b, comparable a -> comparable b -> (cmpv a b = Eq <-> same a b).
Proof.
  induction a using value_nested_ind; intros b' CA CB; try contradiction; destruct b'; try contradiction;
    try (split; [discriminate|]; cbn; intro; try discriminate; try contradiction; fail).
  - unfold cmpv. cbn. rewrite cmp_by_Z_eq. split; congruence.
  - unfold cmpv. cbn. destruct b, b0; cbn; split; congruence.
  - split; reflexivity.
  - unfold cmpv. cbn [compare type_tag cmp_by Z.ltb Z.compare Pos.compare Pos.compare_cont same].
    destruct CA as [CA1 CA2], CB as [CB1 CB2].
    assert (cmp_by dbl_lt z bits = cmp_by Z.ltb (dbl_key z) (dbl_key bits)).
    { unfold cmp_by, dbl_lt. destruct (dbl_nan z) eqn:E; [apply nan_spec in E; auto; contradiction|].
      destruct (dbl_nan bits) eqn:E2; [apply nan_spec in E2; auto; contradiction|]. reflexivity. }
    rewrite H, cmp_by_Z_eq. apply dbl_key_eq; auto.
  - unfold cmpv. cbn. rewrite bytes_cmp_by, bytes_cmp_eq. split; congruence.
  - unfold cmpv. cbn. rewrite bytes_cmp_by, bytes_cmp_eq. split; congruence.
  - unfold cmpv. cbn. apply cmp_by_Z_eq.
  - change (cmpm m) in CA. change (cmpm m0) in CB. rewrite !cmpv_struct by auto. cbn [same].
    revert m0 CB. induction H as [|[k x] m Hx F IH]; intros [|[k' y] n] CB; cbn [cmpv_members]; try (split; [discriminate|contradiction]).
    { split; auto. }
    destruct CA as [CA1 CA2], CB as [CB1 CB2]. specialize (IH CA2 n CB2). specialize (Hx y CA1 CB1). cbn [snd] in Hx.
    rewrite <- Hx. destruct (bytes_cmp k k') eqn:E.
    + apply bytes_cmp_eq in E. subst. destruct (cmpv x y); [rewrite IH; tauto| |]; (split; [discriminate|]; intros (_ & X & _); congruence).
    + split; [discriminate|]. intros (X & _). subst. rewrite bytes_cmp_refl in E. discriminate.
    + split; [discriminate|]. intros (X & _). subst. rewrite bytes_cmp_refl in E. discriminate.
  - change (cmps l) in CA. change (cmps l0) in CB. rewrite !cmpv_array by auto. cbn [same].
    revert l0 CB. induction H as [|x m Hx F IH]; intros [|y n] CB; cbn [cmpv_items]; try (split; [discriminate|contradiction]).
    { split; auto. }
    destruct CA as [CA1 CA2], CB as [CB1 CB2]. specialize (IH CA2 n CB2). specialize (Hx y CA1 CB1).
    rewrite <- Hx. destruct (cmpv x y); [rewrite IH; tauto| |]; (split; [discriminate|]; intros (X & _); congruence).
Qed.
