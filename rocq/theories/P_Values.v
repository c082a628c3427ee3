(** Properties of operations on values: C22, C23, C24. *)
From Coq Require Import Lia.
From Verif Require Import Base Value M_Values S_Value S_Compare S_Containers L_Base L_TreeBuilder L_Dup L_Compare.

(** ** C22 *)
(** Missing from the full property: NaNs and the three kinds of value [compare] refuses. *)
Theorem C22_total_preorder_partial :
  (forall a b, comparable a -> comparable b -> exists c, compare a b = Ok c)
  /\ (forall a, comparable a -> compare a a = Ok Eq)
  /\ (forall a b c, comparable a -> comparable b -> compare a b = Ok c -> compare b a = Ok (CompOpp c))
  /\ (forall a b c x y, comparable a -> comparable b -> comparable c ->
        compare a b = Ok x -> compare b c = Ok y -> x <> Gt -> y <> Gt ->
        compare a c = Ok (match x, y with Eq, Eq => Eq | _, _ => Lt end)).
Proof.
  split; [exact compare_defined|]. split; [|split].
  - intros a A. rewrite cmpv_ok by auto. pose proof (cmpv_anti a a A A). destruct (cmpv a a); cbn in *; congruence.
  - intros a b c A B. rewrite !cmpv_ok by auto. intro E. inversion E. rewrite (cmpv_anti a b A B). reflexivity.
  - intros a b c x y A B C. rewrite !cmpv_ok by auto. intros E1 E2 N1 N2. inversion E1; inversion E2; subst.
    rewrite (cmpv_trans a b c) by auto. reflexivity.
Qed.
Print Assumptions C22_total_preorder_partial.

Theorem C22_equality : forall a b, comparable a -> comparable b -> (compare a b = Ok Eq <-> same a b).
Proof.
  intros a b A B. rewrite cmpv_ok by auto. rewrite <- cmpv_same by auto. split; congruence.
Qed.
Print Assumptions C22_equality.

Example C22_sample :
  let a := VStruct [(str "a", VArray [VInt 1; VDouble (2 ^ 63)]); (str "b", VString (str "x"))] in
  let b := VStruct [(str "a", VArray [VInt 1; VDouble 0]); (str "b", VString (str "y"))] in
  comparable a /\ comparable b /\ compare a b = Ok Lt /\ compare (VInt 3) (VString []) = Ok Lt.
Proof.
  cbn zeta. split; [|split; [|split; vm_compute; reflexivity]].
  - repeat (split; try exact I); try (vm_compute; congruence). intros [E _]. vm_compute in E. discriminate.
  - repeat (split; try exact I); try (vm_compute; congruence). intros [E _]. vm_compute in E. discriminate.
Qed.

(** A NaN is equal to everything, so equality is not transitive. *)
Theorem C22_nan_refuted : exists nan, is_nan nan /\
  compare (VDouble 0) (VDouble nan) = Ok Eq /\ compare (VDouble nan) (VDouble (1023 * 2 ^ 52)) = Ok Eq
  /\ compare (VDouble 0) (VDouble (1023 * 2 ^ 52)) = Ok Lt.
Proof. exists (2047 * 2 ^ 52 + 1). split; [split; vm_compute; congruence|]. split; [|split]; vm_compute; reflexivity. Qed.
Print Assumptions C22_nan_refuted.

(** String views, binary references and secrets are not even equal to themselves: an exception. *)
Theorem C22_unsupported_refuted : forall s n cs v,
  compare (VStringView s) (VStringView s) = Err RuntimeError
  /\ compare (VBinaryRef n cs) (VBinaryRef n cs) = Err RuntimeError
  /\ compare (VSecret v) (VSecret v) = Err RuntimeError.
Proof. intros. repeat split. Qed.
Print Assumptions C22_unsupported_refuted.

(** ** C23 *)
(** One operation; a refused [append] throws and leaves the struct as it is. *)
Definition apply_op (o : struct_op) (m : members) : members * option exn :=
  match o with
  | OAppend k v => match struct_append k v m with Ok m' => (m', None) | Err e => (m, Some e) | UB => (m, None) end
  | OAppendPair k v => (struct_append_pair k v m, None)
  | OInsert k v => (struct_insert k v m, None)
  | OErase k => (snd (struct_erase k m), None)
  | OClear => ([], None)
  end.
Definition apply_ops (ops : list struct_op) : members := fold_left (fun m o => fst (apply_op o m)) ops [].

Lemma map_get_in : forall A (m : list (bytes * A)) k x, increasing m -> (map_get k m = Some x <-> In (k, x) m).
Proof.
  intros A m k x. induction m as [|[k0 y] m IH]; intro I; [split; [discriminate|intros []]|].
  destruct I as [I1 I2]. cbn [map_get]. destruct (bytes_cmp k k0) eqn:E.
  - apply bytes_cmp_eq in E. subst k0. split.
    + intro H. inversion H. left. reflexivity.
    + intros [H|H]; [inversion H; reflexivity|]. specialize (I1 _ _ H). rewrite bytes_cmp_refl in I1. discriminate.
  - rewrite IH by auto. split; [intro; right; auto|]. intros [H|H]; auto. inversion H; subst. rewrite bytes_cmp_refl in E. discriminate.
  - rewrite IH by auto. split; [intro; right; auto|]. intros [H|H]; auto. inversion H; subst. rewrite bytes_cmp_refl in E. discriminate.
Qed.

Lemma map_insert_spec : forall A k (v : A) m, increasing m ->
  map_insert k v m = match map_get k m with Some _ => m | None => map_set k v m end.
Proof.
  intros A k v m. induction m as [|[k0 y] m IH]; intro I; [reflexivity|]. destruct I as [I1 I2].
  cbn [map_insert map_get map_set]. destruct (bytes_cmp k k0) eqn:E; auto.
  - assert (N : map_get k m = None).
    { destruct (map_get k m) eqn:G; auto. apply map_get_in in G; auto. specialize (I1 _ _ G).
      rewrite bytes_cmp_antisym, E in I1. discriminate. }
    rewrite N. reflexivity.
  - rewrite IH by auto. destruct (map_get k m); reflexivity.
Qed.

Lemma map_erase_in : forall A k (m : list (bytes * A)) p, In p (map_erase k m) -> In p m.
Proof.
  intros A k. induction m as [|[k0 y] m IH]; intros p H; [destruct H|]. cbn [map_erase] in H.
  destruct (bytes_cmp k k0); [right; exact H| |]; (destruct H as [H|H]; [left; exact H|right; apply IH; exact H]).
Qed.

Lemma map_erase_spec : forall A k (m : list (bytes * A)), increasing m ->
  increasing (map_erase k m) /\ forall k', map_get k' (map_erase k m) = if bytes_eqb k' k then None else map_get k' m.
Proof.
  intros A k m. induction m as [|[k0 y] m IH]; intro I.
  - split; [exact I|]. intro k'. cbn. destruct (bytes_eqb k' k); reflexivity.
  - destruct I as [I1 I2]. destruct (IH I2) as [J1 J2]. cbn [map_erase]. destruct (bytes_cmp k k0) eqn:E.
    + apply bytes_cmp_eq in E. subst k0. split; [exact I2|]. intro k'. cbn [map_get].
      destruct (bytes_cmp k' k) eqn:E2.
      * apply bytes_cmp_eq in E2. subst k'. rewrite bytes_eqb_refl. destruct (map_get k m) eqn:G; auto.
        apply map_get_in in G; auto. specialize (I1 _ _ G). rewrite bytes_cmp_refl in I1. discriminate.
      * destruct (bytes_eqb k' k) eqn:E3; auto. apply bytes_eqb_eq in E3. subst. rewrite bytes_cmp_refl in E2. discriminate.
      * destruct (bytes_eqb k' k) eqn:E3; auto. apply bytes_eqb_eq in E3. subst. rewrite bytes_cmp_refl in E2. discriminate.
    + split; [split; auto; intros k' x H; eapply I1; eapply map_erase_in; eauto|]. intro k'. cbn [map_get]. rewrite J2.
      destruct (bytes_cmp k' k0) eqn:E2; auto. apply bytes_cmp_eq in E2. subst k'. destruct (bytes_eqb k0 k) eqn:E3; auto.
      apply bytes_eqb_eq in E3. subst. rewrite bytes_cmp_refl in E. discriminate.
    + split; [split; auto; intros k' x H; eapply I1; eapply map_erase_in; eauto|]. intro k'. cbn [map_get]. rewrite J2.
      destruct (bytes_cmp k' k0) eqn:E2; auto. apply bytes_cmp_eq in E2. subst k'. destruct (bytes_eqb k0 k) eqn:E3; auto.
      apply bytes_eqb_eq in E3. subst. rewrite bytes_cmp_refl in E. discriminate.
Qed.

Lemma apply_op_spec : forall o m f, increasing m -> (forall k, map_get k m = f k) ->
  increasing (fst (apply_op o m)) /\ forall k, map_get k (fst (apply_op o m)) = op_effect o f k.
Proof.
  intros [k v|k v|k v|k|] m f I H; cbn [apply_op op_effect].
  - unfold struct_append. destruct (255 <? blen k); cbn [fst]; [split; auto|]. split; [apply map_set_increasing; auto|].
    intro k'. rewrite map_get_set by auto. unfold upd. rewrite H. reflexivity.
  - split; [apply map_set_increasing; auto|]. intro k'. cbn [fst]. unfold struct_append_pair. rewrite map_get_set by auto. unfold upd. rewrite H. reflexivity.
  - cbn [fst]. unfold struct_insert. rewrite map_insert_spec by auto. rewrite <- (H k). destruct (map_get k m); [split; auto|].
    split; [apply map_set_increasing; auto|]. intro k'. rewrite map_get_set by auto. unfold upd. rewrite H. reflexivity.
  - cbn [fst struct_erase snd]. destruct (map_erase_spec _ k m I) as [J1 J2]. split; auto. intro k'. rewrite J2. unfold upd. rewrite H. reflexivity.
  - split; [exact Logic.I|]. reflexivity.
Qed.

Lemma increasing_nodup : forall A (m : list (bytes * A)), increasing m -> NoDup (map fst m).
Proof.
  induction m as [|[k x] m IH]; intro I; [constructor|]. destruct I as [I1 I2]. cbn [map fst]. constructor; auto.
  intro H. apply in_map_iff in H. destruct H as ([k' y] & E & H). cbn in E. subst. specialize (I1 _ _ H).
  rewrite bytes_cmp_refl in I1. discriminate.
Qed.

(** After any history of operations the struct is the finite map the operations describe: every look-up
    agrees with it, iteration is in strictly increasing name order, and the iterated names are
    exactly the names that are set (so [size] counts them). *)
Theorem C23_struct_history : forall ops,
  let m := apply_ops ops in
  increasing m /\ NoDup (map fst m)
  /\ (forall k, struct_get k m = effects ops k)
  /\ (forall k, struct_has_key k m = match effects ops k with Some _ => true | None => false end)
  /\ (forall k, struct_at k m = match effects ops k with Some v => Ok v | None => Err KeyError end)
  /\ (forall k d, struct_get_default k d m = match effects ops k with Some v => v | None => d end)
  /\ (forall k, In k (map fst m) <-> effects ops k <> None).
Proof.
  intro ops. cbn zeta.
  assert (G : increasing (apply_ops ops) /\ forall k, map_get k (apply_ops ops) = effects ops k).
  { unfold apply_ops, effects. rewrite <- (rev_involutive ops). generalize (rev ops). clear ops. intro l.
    induction l as [|o l IH]; [split; [exact I|reflexivity]|]. cbn [rev]. rewrite !fold_left_app. cbn [fold_left].
    apply apply_op_spec; apply IH. }
  destruct G as [I G]. split; auto. split; [apply increasing_nodup; auto|]. unfold struct_get, struct_has_key, struct_at, struct_get_default.
  split; [exact G|]. split; [intro k; rewrite G; reflexivity|]. split; [intro k; rewrite G; reflexivity|].
  split; [intros k d; rewrite G; reflexivity|]. intro k. rewrite <- G. split.
  - intro H. apply in_map_iff in H. destruct H as ([k' y] & E & H). cbn in E. subst. apply map_get_in in H; auto. congruence.
  - destruct (map_get k (apply_ops ops)) eqn:E; [|congruence]. intros _. apply map_get_in in E; auto.
    apply in_map_iff. exists (k, v). auto.
Qed.
Print Assumptions C23_struct_history.

(** [append(key, value)] refuses a name longer than 255 bytes and changes nothing. *)
Theorem C23_long_name_refused : forall k v m, 255 < blen k -> apply_op (OAppend k v) m = (m, Some LenError).
Proof. intros k v m H. cbn. unfold struct_append. replace (255 <? blen k) with true by lia. reflexivity. Qed.
Print Assumptions C23_long_name_refused.

(** A new name makes the struct larger by one, a known name does not. *)
Theorem C23_append_size : forall ops k v, blen k <= 255 ->
  let m := apply_ops ops in
  zlen (fst (apply_op (OAppend k v) m)) = zlen m + (if struct_has_key k m then 0 else 1).
Proof.
  intros ops k v H. cbn zeta. destruct (C23_struct_history ops) as (I & _). cbn zeta in I. revert I. generalize (apply_ops ops). intros m I.
  cbn. unfold struct_append. replace (255 <? blen k) with false by lia. cbn [fst]. unfold struct_has_key.
  induction m as [|[k0 y] m IH]; [reflexivity|]. destruct I as [I1 I2]. cbn [map_set map_get].
  destruct (bytes_cmp k k0) eqn:E; rewrite ?zlen_cons.
  - lia.
  - assert (N : map_get k m = None).
    { destruct (map_get k m) eqn:G; auto. apply map_get_in in G; auto. specialize (I1 _ _ G).
      rewrite bytes_cmp_antisym, E in I1. discriminate. }
    rewrite N. lia.
  - rewrite IH by auto. lia.
Qed.
Print Assumptions C23_append_size.

(** The other ways to add a member do not check the length of the name. *)
Theorem C23_insert_long_name_refuted : exists k, blen k = 300 /\
  struct_has_key k (apply_ops [OInsert k VNull]) = true /\ struct_has_key k (apply_ops [OAppendPair k VNull]) = true.
Proof. exists (repeat x61 300). repeat split; vm_compute; reflexivity. Qed.
Print Assumptions C23_insert_long_name_refuted.

Example C23_sample :
  apply_ops [OAppend (str "b") (VInt 1); OAppend (str "a") (VInt 2); OInsert (str "b") (VInt 3); OAppend (str "a") (VInt 4);
             OAppend (str "c") VNull; OErase (str "c")] = [(str "a", VInt 4); (str "b", VInt 1)].
Proof. vm_compute. reflexivity. Qed.

(** ** C24 *)
Lemma letter_not_quest : forall l, byte_eqb (letter_char l) quest = false.
Proof. destruct l; reflexivity. Qed.

Lemma format_count : forall f, zlen (filter (fun c => negb (byte_eqb c quest)) (format_text f)) = zlen f.
Proof.
  induction f as [|[l q] f IH]; [reflexivity|]. cbn [format_text flat_map fst snd]. rewrite filter_app, zlen_app, zlen_cons.
  change (flat_map _ f) with (format_text f). rewrite IH. cbn [filter]. rewrite letter_not_quest. destruct q; reflexivity.
Qed.

Lemma letter_type_spec : forall l v, (match letter_type (letter_char l) with Some t => type_tag v =? t | None => true end) = true <-> has_type l v.
Proof. intros l v. destruct l, v; cbn; intuition congruence. Qed.

Lemma letter_typed : forall l, exists t, letter_type (letter_char l) = Some t /\ t <> 12.
Proof. destruct l; eexists; (split; [reflexivity|discriminate]). Qed.

Lemma null_tag : forall v, (type_tag v =? 12) = true <-> v = VNull.
Proof. intros []; cbn; split; congruence. Qed.

Lemma has_type_null : forall l v, v = VNull -> has_type l v -> False.
Proof. intros l v -> H. destruct l; exact H. Qed.

Lemma check_loop_spec : forall f l, zlen f = zlen l ->
  (check_loop (format_text f) l = Ok tt <-> Forall2 item_ok f l)
  /\ (check_loop (format_text f) l = Ok tt \/ check_loop (format_text f) l = Err TypeError).
Proof.
  induction f as [|[a q] f IH]; intros [|v l] EL; rewrite ?zlen_cons, ?zlen_nil in EL;
    try (pose proof (zlen_nonneg _ f); lia); try (pose proof (zlen_nonneg _ l); lia).
  - cbn. split; auto. split; auto.
  - destruct (IH l ltac:(lia)) as [I1 I2]. clear IH.
    set (nxt := format_text f) in *.
    assert (STEP : check_loop (format_text ((a, q) :: f)) (v :: l) =
                   if q && (type_tag v =? 12) then check_loop nxt l
                   else match letter_type (letter_char a) with
                        | Some t => if type_tag v =? t then check_loop nxt l else Err TypeError
                        | None => check_loop nxt l
                        end).
    { cbn [format_text flat_map fst snd]. change (flat_map _ f) with nxt. destruct q; cbn [app check_loop].
      - change (byte_eqb x3f quest) with true. cbn [andb tl]. reflexivity.
      - assert (Q : (match nxt with q :: _ => byte_eqb q quest | [] => false end) = false).
        { subst nxt. destruct f as [|[b q'] f']; [reflexivity|]. cbn. apply letter_not_quest. }
        rewrite Q. reflexivity. }
    rewrite STEP. destruct (letter_typed a) as (t & ET & NT). pose proof (letter_type_spec a v) as LT. rewrite ET in *.
    destruct (q && (type_tag v =? 12)) eqn:EN.
    + apply andb_true_iff in EN. destruct EN as [-> EN]. split; auto. rewrite I1. split.
      * intro H. constructor; auto. right. cbn. split; auto. apply null_tag; auto.
      * intro H. inversion H; auto.
    + destruct (type_tag v =? t) eqn:EV.
      * split; auto. rewrite I1. split.
        -- intro H. constructor; auto. left. apply LT. reflexivity.
        -- intro H. inversion H; auto.
      * split; auto. split; [discriminate|]. intro H. inversion H as [|? ? ? ? [H1|[H1 H2]]]; subst.
        -- apply LT in H1. discriminate.
        -- cbn in H1. subst q. cbn in EN. discriminate.
Qed.

(** For a format made of the documented letters, [checkItems] returns exactly when the array has one item
    per letter and every item has the type of its letter (or is null where a '?' allows it); otherwise it
    throws a length error or a type error. *)
Theorem C24_check_items : forall f l,
  (check_items (format_text f) l = Ok tt <-> Forall2 item_ok f l)
  /\ (zlen l <> zlen f <-> check_items (format_text f) l = Err LenError)
  /\ (check_items (format_text f) l = Ok tt \/ check_items (format_text f) l = Err LenError
      \/ check_items (format_text f) l = Err TypeError).
Proof.
  intros f l. unfold check_items. rewrite format_count. destruct (zlen l =? zlen f) eqn:E.
  - apply Z.eqb_eq in E. destruct (check_loop_spec f l) as [S1 S2]; [lia|]. split; auto. split; [|tauto].
    split; [lia|]. intro H. destruct S2; congruence.
  - apply Z.eqb_neq in E. split; [|split; auto; split; auto].
    split; [discriminate|]. intro H. exfalso. apply E. clear E. induction H; [reflexivity|]. rewrite !zlen_cons. lia.
Qed.
Print Assumptions C24_check_items.

(** Whatever the format text, the check stays inside it. *)
Lemma check_loop_safe : forall l rest,
  zlen l <= zlen (filter (fun c => negb (byte_eqb c quest)) rest) -> check_loop rest l <> UB.
Proof.
  induction l as [|v l IH]; intros rest H; [discriminate|]. rewrite zlen_cons in H. pose proof (zlen_nonneg _ l).
  destruct rest as [|c r]; [cbn [filter] in H; rewrite zlen_nil in H; lia|]. cbn [check_loop].
  set (cbn0 := match r with q :: _ => byte_eqb q quest | [] => false end).
  assert (N : zlen l <= zlen (filter (fun c => negb (byte_eqb c quest)) (if cbn0 then tl r else r))).
  { cbn [filter] in H. assert (zlen l <= zlen (filter (fun c => negb (byte_eqb c quest)) r)).
    { destruct (negb (byte_eqb c quest)); rewrite ?zlen_cons in H; lia. }
    subst cbn0. destruct r as [|q r]; [exact H1|]. destruct (byte_eqb q quest) eqn:E; [|exact H1].
    cbn [filter] in H1. rewrite E in H1. exact H1. }
  destruct (cbn0 && (type_tag v =? 12)); [apply IH; auto|]. destruct (letter_type c); [destruct (type_tag v =? z)|]; try (apply IH; auto).
  discriminate.
Qed.

Theorem C24_any_format_safe : forall items l, check_items items l <> UB.
Proof.
  intros items l. unfold check_items. destruct (zlen l =? _) eqn:E; [|discriminate]. apply check_loop_safe. lia.
Qed.
Print Assumptions C24_any_format_safe.

Example C24_sample : format_text [(L_int, false); (L_string, true); (L_array, false)] = str "is?A"
  /\ check_items (str "is?A") [VInt 1; VNull; VArray []] = Ok tt
  /\ check_items (str "is?A") [VNull; VNull; VArray []] = Err TypeError
  /\ check_items (str "is?A") [VInt 1; VNull] = Err LenError.
Proof. repeat split; vm_compute; reflexivity. Qed.
