(** Lemmas about bytes and fixed-width integers. *)
From Coq Require Import Lia.
From Verif Require Import Base.

Ltac Zify.zify_post_hook ::= Z.div_mod_to_equations.

Lemma b2z_range : forall b, 0 <= b2z b < 256.
Proof.
  intro b. unfold b2z. pose proof (Byte.to_N_bounded b). lia.
Qed.

Lemma b2z_z2b : forall z, b2z (z2b z) = z mod 256.
Proof.
  intro z. unfold b2z, z2b.
  assert (H : 0 <= z mod 256 < 256) by (apply Z.mod_pos_bound; lia).
  destruct (Byte.of_N (Z.to_N (z mod 256))) eqn:E.
  - apply Byte.to_of_N in E. rewrite E. rewrite Z2N.id; lia.
  - apply Byte.of_N_None_iff in E. lia.
Qed.

Lemma z2b_b2z : forall b, z2b (b2z b) = b.
Proof.
  intro b. unfold z2b.
  pose proof (b2z_range b).
  rewrite Z.mod_small by lia.
  unfold b2z. rewrite N2Z.id. rewrite Byte.of_to_N. reflexivity.
Qed.

Lemma b2z_inj : forall a b, b2z a = b2z b -> a = b.
Proof. intros a b H. rewrite <- (z2b_b2z a), <- (z2b_b2z b), H. reflexivity. Qed.

Lemma b2z_z2b_small : forall z, 0 <= z < 256 -> b2z (z2b z) = z.
Proof. intros. rewrite b2z_z2b. apply Z.mod_small. lia. Qed.

Lemma byte_eqb_eq : forall a b, byte_eqb a b = true <-> a = b.
Proof.
  intros a b. unfold byte_eqb. rewrite Z.eqb_eq. split; [apply b2z_inj | congruence].
Qed.

Lemma byte_eqb_refl : forall a, byte_eqb a a = true.
Proof. intro. apply byte_eqb_eq. reflexivity. Qed.

Lemma bytes_eqb_eq : forall a b, bytes_eqb a b = true <-> a = b.
Proof.
  induction a as [|x a IH]; destruct b as [|y b]; simpl; split; try congruence; intro H.
  - apply andb_true_iff in H. destruct H as [H1 H2].
    apply byte_eqb_eq in H1. apply IH in H2. congruence.
  - inversion H; subst. apply andb_true_iff. split; [apply byte_eqb_refl | apply IH; reflexivity].
Qed.

Lemma bytes_eqb_refl : forall a, bytes_eqb a a = true.
Proof. intro. apply bytes_eqb_eq. reflexivity. Qed.

(** Order on byte strings. *)
Lemma bytes_cmp_refl : forall a, bytes_cmp a a = Eq.
Proof. induction a; simpl; auto. rewrite Z.compare_refl. auto. Qed.

Lemma bytes_cmp_eq : forall a b, bytes_cmp a b = Eq <-> a = b.
Proof.
  split.
  - revert b. induction a as [|x a IH]; destruct b as [|y b]; simpl; try congruence.
    destruct (b2z x ?= b2z y) eqn:E; try congruence.
    apply Z.compare_eq in E. apply b2z_inj in E. intro H. apply IH in H. congruence.
  - intros ->. apply bytes_cmp_refl.
Qed.

Lemma bytes_cmp_antisym : forall a b, bytes_cmp b a = CompOpp (bytes_cmp a b).
Proof.
  induction a as [|x a IH]; destruct b as [|y b]; simpl; auto.
  rewrite (Z.compare_antisym (b2z x)). destruct (b2z x ?= b2z y); simpl; auto.
Qed.

Lemma bytes_cmp_lt_trans : forall a b c,
  bytes_cmp a b = Lt -> bytes_cmp b c = Lt -> bytes_cmp a c = Lt.
Proof.
  induction a as [|x a IH]; destruct b as [|y b]; destruct c as [|z c]; simpl; try congruence.
  destruct (b2z x ?= b2z y) eqn:E1; try congruence;
  destruct (b2z y ?= b2z z) eqn:E2; try congruence; intros H1 H2.
  - apply Z.compare_eq in E1. apply Z.compare_eq in E2. rewrite E1, E2, Z.compare_refl. eauto.
  - apply Z.compare_eq in E1. rewrite E1, E2. reflexivity.
  - apply Z.compare_eq in E2. rewrite <- E2, E1. reflexivity.
  - rewrite Z.compare_lt_iff in E1, E2.
    assert (b2z x < b2z z) by lia. apply Z.compare_lt_iff in H. rewrite H. reflexivity.
Qed.

Lemma bytes_cmp_lt_neq : forall a b, bytes_cmp a b = Lt -> a <> b.
Proof. intros a b H ->. rewrite bytes_cmp_refl in H. discriminate. Qed.

(** Lengths. *)
Lemma zlen_nil : forall A, zlen (@nil A) = 0.
Proof. reflexivity. Qed.
Lemma zlen_cons : forall A (x : A) l, zlen (x :: l) = 1 + zlen l.
Proof. intros. unfold zlen. simpl List.length. lia. Qed.
Lemma zlen_app : forall A (a b : list A), zlen (a ++ b) = zlen a + zlen b.
Proof. intros. unfold zlen. rewrite app_length. lia. Qed.
Lemma zlen_nonneg : forall A (a : list A), 0 <= zlen a.
Proof. intros. unfold zlen. lia. Qed.
Lemma blen_zlen : forall s, blen s = zlen s.
Proof. reflexivity. Qed.
Lemma zlen_map : forall A B (f : A -> B) l, zlen (map f l) = zlen l.
Proof. intros. unfold zlen. rewrite map_length. reflexivity. Qed.
Lemma zlen_0_nil : forall A (l : list A), zlen l = 0 -> l = [].
Proof. intros A [|x l]; auto. rewrite zlen_cons. pose proof (zlen_nonneg _ l). lia. Qed.

Lemma ztake_app : forall A (a b : list A), ztake (zlen a) (a ++ b) = a.
Proof.
  intros. unfold ztake, zlen. rewrite Nat2Z.id, firstn_app, firstn_all.
  rewrite Nat.sub_diag. simpl. apply app_nil_r.
Qed.
Lemma zdrop_app : forall A (a b : list A), zdrop (zlen a) (a ++ b) = b.
Proof.
  intros. unfold zdrop, zlen. rewrite Nat2Z.id, skipn_app, skipn_all.
  rewrite Nat.sub_diag. reflexivity.
Qed.
Lemma ztake_app' : forall A n (a b : list A), n = zlen a -> ztake n (a ++ b) = a.
Proof. intros; subst; apply ztake_app. Qed.
Lemma zdrop_app' : forall A n (a b : list A), n = zlen a -> zdrop n (a ++ b) = b.
Proof. intros; subst; apply zdrop_app. Qed.
Lemma ztake_zdrop : forall A n (l : list A), ztake n l ++ zdrop n l = l.
Proof. intros. apply firstn_skipn. Qed.
Lemma zlen_ztake : forall A n (l : list A), 0 <= n <= zlen l -> zlen (ztake n l) = n.
Proof. intros A n l H. unfold zlen, ztake in *. rewrite firstn_length. lia. Qed.
Lemma zlen_zdrop : forall A n (l : list A), 0 <= n <= zlen l -> zlen (zdrop n l) = zlen l - n.
Proof. intros A n l H. unfold zlen, zdrop in *. rewrite skipn_length. lia. Qed.
Lemma ztake_all : forall A n (l : list A), zlen l <= n -> ztake n l = l.
Proof. intros A n l H. unfold ztake, zlen in *. apply firstn_all2. lia. Qed.
Lemma zdrop_all : forall A n (l : list A), zlen l <= n -> zdrop n l = [].
Proof. intros A n l H. unfold zdrop, zlen in *. apply skipn_all2. lia. Qed.
Lemma ztake_0 : forall A (l : list A), ztake 0 l = [].
Proof. reflexivity. Qed.
Lemma zdrop_0 : forall A (l : list A), zdrop 0 l = l.
Proof. reflexivity. Qed.
Lemma ztake_app_le : forall A n (a b : list A), n <= zlen a -> ztake n (a ++ b) = ztake n a.
Proof.
  intros A n a b H. unfold ztake, zlen in *.
  rewrite firstn_app. replace (Z.to_nat n - List.length a)%nat with O by lia.
  simpl. apply app_nil_r.
Qed.
Lemma zdrop_app_le : forall A n (a b : list A), n <= zlen a -> zdrop n (a ++ b) = zdrop n a ++ b.
Proof.
  intros A n a b H. unfold zdrop, zlen in *.
  rewrite skipn_app. replace (Z.to_nat n - List.length a)%nat with O by lia. reflexivity.
Qed.
Lemma zdrop_zdrop : forall A n m (l : list A), 0 <= n -> 0 <= m -> zdrop n (zdrop m l) = zdrop (m + n) l.
Proof.
  intros A n m l Hn Hm. unfold zdrop. rewrite Z2Nat.inj_add by lia.
  generalize (Z.to_nat n) (Z.to_nat m). clear. intros n m. revert l.
  induction m as [|m IH]; intros l; simpl; auto.
  destruct l; simpl; auto. apply skipn_nil.
Qed.

(** Little-endian encoding. *)
Lemma le_bytes_length : forall n z, List.length (le_bytes n z) = n.
Proof. induction n; intros; simpl; auto. Qed.
Lemma zlen_le_bytes : forall n z, zlen (le_bytes n z) = Z.of_nat n.
Proof. intros. unfold zlen. rewrite le_bytes_length. reflexivity. Qed.

Lemma le_val_le_bytes : forall n z, le_val (le_bytes n z) = z mod 256 ^ Z.of_nat n.
Proof.
  induction n as [|n IH]; intro z.
  - simpl. rewrite Z.mod_1_r. reflexivity.
  - cbn [le_bytes le_val]. rewrite IH, b2z_z2b.
    replace (Z.of_nat (S n)) with (1 + Z.of_nat n) by lia.
    rewrite Z.pow_add_r by lia. change (256 ^ 1) with 256.
    rewrite (Z.rem_mul_r z 256 (256 ^ Z.of_nat n)) by lia. reflexivity.
Qed.

Lemma le_val_range : forall s, 0 <= le_val s < 256 ^ zlen s.
Proof.
  induction s as [|b s IH].
  - simpl. lia.
  - cbn [le_val]. rewrite zlen_cons, Z.pow_add_r by (try lia; apply zlen_nonneg).
    pose proof (b2z_range b). change (256 ^ 1) with 256. nia.
Qed.

Lemma le_bytes_le_val : forall s, le_bytes (List.length s) (le_val s) = s.
Proof.
  induction s as [|b s IH]; auto.
  cbn [List.length le_bytes le_val].
  pose proof (b2z_range b).
  f_equal.
  - apply b2z_inj. rewrite b2z_z2b.
    rewrite (Z.mul_comm 256), Z.mod_add by lia. apply Z.mod_small. lia.
  - rewrite (Z.mul_comm 256), Z.div_add by lia. rewrite Z.div_small by lia. exact IH.
Qed.

Lemma le_bytes_inj : forall n a b,
  0 <= a < 256 ^ Z.of_nat n -> 0 <= b < 256 ^ Z.of_nat n -> le_bytes n a = le_bytes n b -> a = b.
Proof.
  intros n a b Ha Hb H. apply (f_equal le_val) in H.
  rewrite !le_val_le_bytes, !Z.mod_small in H; auto.
Qed.

(** Signed / unsigned conversions. *)
Lemma unsigned_range : forall k z, 0 < k -> 0 <= unsigned k z < 2 ^ k.
Proof. intros. unfold unsigned. apply Z.mod_pos_bound. apply Z.pow_pos_nonneg; lia. Qed.

Lemma unsigned_id : forall k z, 0 <= z < 2 ^ k -> unsigned k z = z.
Proof. intros. unfold unsigned. apply Z.mod_small. lia. Qed.

Lemma pow2_half : forall k, 0 < k -> 2 ^ k = 2 * 2 ^ (k - 1).
Proof. intros. rewrite <- Z.pow_succ_r by lia. f_equal. lia. Qed.

Lemma signed_range : forall k z, 0 < k -> - 2 ^ (k - 1) <= signed k z < 2 ^ (k - 1).
Proof.
  intros k z Hk. unfold signed. cbv zeta.
  assert (0 <= z mod 2 ^ k < 2 ^ k) by (apply Z.mod_pos_bound; apply Z.pow_pos_nonneg; lia).
  pose proof (pow2_half k Hk).
  destruct (Z.ltb_spec (z mod 2 ^ k) (2 ^ (k - 1))); lia.
Qed.

Lemma signed_id : forall k z, 0 < k -> - 2 ^ (k - 1) <= z < 2 ^ (k - 1) -> signed k z = z.
Proof.
  intros k z Hk H. unfold signed. cbv zeta.
  pose proof (pow2_half k Hk).
  assert (0 < 2 ^ (k - 1)) by (apply Z.pow_pos_nonneg; lia).
  destruct (Z_lt_le_dec z 0).
  - replace (z mod 2 ^ k) with (z + 2 ^ k).
    + destruct (Z.ltb_spec (z + 2 ^ k) (2 ^ (k - 1))); lia.
    + rewrite <- (Z.mod_add z 1 (2 ^ k)) by lia. rewrite Z.mul_1_l. rewrite Z.mod_small; lia.
  - rewrite Z.mod_small by lia. destruct (Z.ltb_spec z (2 ^ (k - 1))); lia.
Qed.

Lemma signed_unsigned : forall k z, 0 < k -> signed k (unsigned k z) = signed k z.
Proof.
  intros. unfold signed, unsigned. rewrite Z.mod_mod; auto.
  apply Z.pow_nonzero; lia.
Qed.

Lemma s64_u64 : forall z, in_s64 z -> s64 (u64 z) = z.
Proof.
  intros z H. unfold s64, u64. rewrite signed_unsigned by lia. apply signed_id; [lia|].
  unfold in_s64 in H. change (64 - 1) with 63. exact H.
Qed.

Lemma s64_id : forall z, in_s64 z -> s64 z = z.
Proof. intros z H. unfold s64. apply signed_id; [lia|]. exact H. Qed.
Lemma s32_id : forall z, in_s32 z -> s32 z = z.
Proof. intros z H. unfold s32. apply signed_id; [lia|]. exact H. Qed.
Lemma s16_id : forall z, in_s16 z -> s16 z = z.
Proof. intros z H. unfold s16. apply signed_id; [lia|]. exact H. Qed.
Lemma s8_id : forall z, in_s8 z -> s8 z = z.
Proof. intros z H. unfold s8. apply signed_id; [lia|]. exact H. Qed.
Lemma s32_u32 : forall z, in_s32 z -> s32 (u32 z) = z.
Proof. intros z H. unfold s32, u32. rewrite signed_unsigned by lia. apply s32_id. exact H. Qed.
Lemma u64_id : forall z, in_u64 z -> u64 z = z.
Proof. intros z H. apply unsigned_id. exact H. Qed.
Lemma u32_id : forall z, in_u32 z -> u32 z = z.
Proof. intros z H. apply unsigned_id. exact H. Qed.

(** Masks. *)
Lemma land_mask_0 : forall n k, 0 <= k -> (Z.land n (Z.shiftl (-1) k) = 0 <-> 0 <= n < 2 ^ k).
Proof.
  intros n k Hk. rewrite Z.shiftl_mul_pow2 by lia.
  assert (P : 0 < 2 ^ k) by (apply Z.pow_pos_nonneg; lia).
  assert (E : Z.land n (-1 * 2 ^ k) = n / 2 ^ k * 2 ^ k).
  { rewrite <- Z.shiftr_div_pow2, <- Z.shiftl_mul_pow2, <- Z.shiftl_mul_pow2 by lia.
    apply Z.bits_inj'. intros i Hi.
    rewrite Z.land_spec, !Z.shiftl_spec by lia.
    destruct (Z_lt_le_dec i k).
    - rewrite (Z.testbit_neg_r _ (i - k)) by lia.
      rewrite (Z.testbit_neg_r _ (i - k)) by lia. apply andb_false_r.
    - rewrite Z.shiftr_spec by lia. replace (i - k + k) with i by lia.
      rewrite Z.bits_m1 by lia. apply andb_true_r. }
  rewrite E. split; intro H.
  - assert (n / 2 ^ k = 0) by nia. pose proof (Z.div_mod n (2 ^ k)).
    pose proof (Z.mod_pos_bound n (2 ^ k)). nia.
  - rewrite Z.div_small by lia. reflexivity.
Qed.

Lemma land_ones_mod : forall a k, 0 <= k -> Z.land a (2 ^ k - 1) = a mod 2 ^ k.
Proof.
  intros a k Hk. rewrite <- Z.land_ones by lia. f_equal. rewrite Z.ones_equiv. lia.
Qed.

(** Disjoint [lor] is addition. *)
Lemma lor_add_pow2 : forall a b k, 0 <= k -> 0 <= a < 2 ^ k -> Z.lor (b * 2 ^ k) a = b * 2 ^ k + a.
Proof.
  intros a b k Hk Ha.
  assert (E : Z.land (b * 2 ^ k) a = 0);
    [|rewrite Z.add_nocarry_lxor by exact E; symmetry; apply Z.lxor_lor; exact E].
  apply Z.bits_inj'. intros i Hi. rewrite Z.land_spec, Z.bits_0.
  destruct (Z_lt_le_dec i k).
  - rewrite Z.mul_pow2_bits_low by lia. reflexivity.
  - destruct (Z.eq_dec a 0) as [->|Ha0]; [rewrite Z.bits_0; apply andb_false_r|].
    rewrite (Z.bits_above_log2 a i); [apply andb_false_r | lia |].
    assert (Z.log2 a < k) by (apply Z.log2_lt_pow2; lia). lia.
Qed.
