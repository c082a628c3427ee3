(** Lemmas about decimal text. *)
From Coq Require Import Lia.
From Verif Require Import Base Text L_Base.
Ltac Zify.zify_post_hook ::= Z.div_mod_to_equations.

Lemma digit_spec : forall d, 0 <= d <= 9 -> b2z (digit d) = 48 + d.
Proof. intros d H. unfold digit. apply b2z_z2b_small. lia. Qed.

Lemma digit_is_digit : forall d, 0 <= d <= 9 -> is_digit (digit d) = true.
Proof. intros d H. unfold is_digit. rewrite digit_spec by lia. apply andb_true_intro. split; apply Z.leb_le; lia. Qed.

Lemma digit_val_digit : forall d, 0 <= d <= 9 -> digit_val (digit d) = d.
Proof. intros d H. unfold digit_val. rewrite digit_spec by lia. lia. Qed.

Lemma digit_inj : forall a b, 0 <= a <= 9 -> 0 <= b <= 9 -> digit a = digit b -> a = b.
Proof. intros a b A B E. rewrite <- (digit_val_digit a A), <- (digit_val_digit b B), E. reflexivity. Qed.

Lemma undec_fold : forall s a, fold_left (fun a b => a * 10 + digit_val b) s a = a * 10 ^ zlen s + undec s.
Proof.
  induction s as [|b s IH]; intro a; unfold undec; cbn [fold_left].
  - rewrite zlen_nil. lia.
  - rewrite IH, (IH (0 * 10 + digit_val b)). rewrite zlen_cons.
    rewrite Z.pow_add_r by (pose proof (zlen_nonneg _ s); lia). change (10 ^ 1) with 10. lia.
Qed.

Lemma undec_cons : forall b s, undec (b :: s) = digit_val b * 10 ^ zlen s + undec s.
Proof. intros. unfold undec at 1. cbn [fold_left]. rewrite undec_fold. lia. Qed.

Lemma undec_app : forall a b, undec (a ++ b) = undec a * 10 ^ zlen b + undec b.
Proof. intros. unfold undec at 1. rewrite fold_left_app, undec_fold. reflexivity. Qed.

(** Enough fuel. *)
Lemma dec_aux_spec : forall fuel n acc, 0 <= n < 2 ^ (Z.of_nat fuel + 1) ->
  exists ds, dec_aux fuel n acc = ds ++ acc /\ ds <> [] /\ Forall (fun b => is_digit b = true) ds /\ undec ds = n
             /\ (forall b r, ds = b :: r -> r <> [] -> b <> x30).
Proof.
  induction fuel as [|f IH]; intros n acc H; cbn [dec_aux]; destruct (n <? 10) eqn:E.
  1,3: (exists [digit n]; split; [reflexivity|]; split; [discriminate|]; split;
      [constructor; [apply digit_is_digit; lia|constructor]|]; split;
      [unfold undec; cbn; rewrite digit_val_digit by lia; lia|]; intros b r EQ NE; inversion EQ; subst; congruence).
  - cbn in H. lia.
  - destruct (IH (n / 10) (digit (n mod 10) :: acc)) as (ds & E1 & N & F & U & Z0).
    { replace (Z.of_nat (S f) + 1) with ((Z.of_nat f + 1) + 1) in H by lia.
      rewrite Z.pow_add_r in H by lia. change (2 ^ 1) with 2 in H. lia. }
    exists (ds ++ [digit (n mod 10)]). split; [rewrite E1, <- app_assoc; reflexivity|].
    split; [destruct ds; discriminate|]. split; [apply Forall_app; split; auto; constructor; [apply digit_is_digit; lia|constructor]|].
    split.
    { rewrite undec_app, U. change (zlen [digit (n mod 10)]) with 1. change (10 ^ 1) with 10.
      unfold undec. cbn [fold_left]. rewrite digit_val_digit by lia. lia. }
    intros b r EQ NE. destruct ds as [|b0 r0]; [congruence|]. cbn [app] in EQ. inversion EQ; subst b r.
    destruct r0 as [|b1 r1]; [|eapply Z0; eauto; discriminate].
    intro X. subst b0. unfold undec in U. cbn in U. change (digit_val x30) with 0 in U. lia.
Qed.

Lemma log2_fuel : forall n, 0 <= n -> n < 2 ^ (Z.of_nat (Z.to_nat (Z.log2 n)) + 1).
Proof.
  intros n H. rewrite Z2Nat.id by apply Z.log2_nonneg. destruct (Z.eq_dec n 0) as [->|N]; [cbn; lia|].
  apply Z.log2_spec. lia.
Qed.

Lemma dec_spec : forall n, 0 <= n ->
  dec n <> [] /\ Forall (fun b => is_digit b = true) (dec n) /\ undec (dec n) = n
  /\ (forall b r, dec n = b :: r -> r <> [] -> b <> x30).
Proof.
  intros n H. unfold dec.
  destruct (dec_aux_spec (Z.to_nat (Z.log2 n)) n []) as (ds & E & P); [pose proof (log2_fuel n H); lia|].
  rewrite app_nil_r in E. rewrite E. exact P.
Qed.

Lemma dec_inj : forall a b, 0 <= a -> 0 <= b -> dec a = dec b -> a = b.
Proof.
  intros a b A B E. destruct (dec_spec a A) as (_ & _ & <- & _). destruct (dec_spec b B) as (_ & _ & <- & _).
  rewrite E. reflexivity.
Qed.
