(** Lemmas about texts in JavaScript. *)
From Coq Require Import Lia Permutation.
From Verif Require Import Base Value Unicode M_Marshal M_BinUnmarshal S_Value S_Wire M_Js S_Js L_Base L_Bits L_RoundTrip.
Ltac Zify.zify_post_hook ::= Z.div_mod_to_equations.

(** ** Texts *)
Lemma b2z_small : forall z, 0 <= z < 256 -> b2z (z2b z) = z.
Proof. exact b2z_z2b_small. Qed.

Ltac bools := repeat match goal with
  | |- context [?a <? ?b] => destruct (Z.ltb_spec a b); try lia
  | |- context [?a <=? ?b] => destruct (Z.leb_spec a b); try lia
  | |- context [?a =? ?b] => destruct (Z.eqb_spec a b); try lia
  end.

Lemma run_char : forall c r, uchar c -> td_run Dec_start (utf8_char c ++ r) = utf16_char c ++ td_run Dec_start r.
Proof.
  intros c r S. unfold uchar in S. unfold utf8_char.
  destruct (Z.ltb_spec c 128); [|destruct (Z.ltb_spec c 2048); [|destruct (Z.ltb_spec c 65536)]]; cbn [app].
  - cbn [td_run]. rewrite b2z_small by lia. unfold dec_first, utf16_char. bools. reflexivity.
  - cbn [td_run]. rewrite !b2z_small by lia. unfold dec_first. bools; cbn [andb]. cbn [td_run app]. bools. cbn [andb].
    replace ((192 + c / 64 - 192) * 64 + (128 + c mod 64 - 128)) with c by lia. reflexivity.
  - assert (X : exists a b d, c / 4096 = a /\ c / 64 mod 64 = b /\ c mod 64 = d /\ c = (a * 64 + b) * 64 + d /\ 0 <= a < 16 /\ 0 <= b < 64 /\ 0 <= d < 64)
      by (do 3 eexists; do 3 (split; [reflexivity|]); lia).
    destruct X as (a & b & d & -> & -> & -> & -> & A & B & D).
    cbn [td_run]. rewrite !b2z_small by lia. unfold dec_first. bools; cbn [andb]; cbn [td_run app]; bools; cbn [andb];
      do 2 f_equal; lia.
  - assert (X : exists a b d e, c / 262144 = a /\ c / 4096 mod 64 = b /\ c / 64 mod 64 = d /\ c mod 64 = e /\ c = ((a * 64 + b) * 64 + d) * 64 + e
        /\ 0 <= a < 5 /\ 0 <= b < 64 /\ 0 <= d < 64 /\ 0 <= e < 64)
      by (do 4 eexists; do 4 (split; [reflexivity|]); lia).
    destruct X as (a & b & d & e & -> & -> & -> & -> & -> & A & B & D & E).
    cbn [td_run]. rewrite !b2z_small by lia. unfold dec_first. bools; cbn [andb]; cbn [td_run app]; bools; cbn [andb];
      do 2 f_equal; lia.
Qed.

Lemma run_text : forall us, Forall uchar us -> td_run Dec_start (flat_map utf8_char us) = flat_map utf16_char us.
Proof. induction 1 as [|c us S _ IH]; [reflexivity|]. cbn [flat_map]. rewrite run_char, IH by auto. reflexivity. Qed.

Lemma mark_bytes : forall a b c r, b2z a = 239 -> b2z b = 187 -> b2z c = 191 -> marked (a :: b :: c :: r).
Proof.
  intros a b c r A B C. exists r. unfold utf8_char. cbn [Z.ltb Z.compare Pos.compare Pos.compare_cont app].
  rewrite <- (z2b_b2z a), <- (z2b_b2z b), <- (z2b_b2z c), A, B, C. reflexivity.
Qed.

Lemma decode_text : forall s, text_fits s -> same_text s (td_decode s).
Proof.
  intros s [(j & us & F & E1 & E2) NM]. exists us. split; [auto|]. split; [auto|]. rewrite <- (run_text us) by auto. rewrite <- E1.
  unfold td_decode. destruct s as [|a [|b [|c r]]]; try reflexivity.
  destruct ((b2z a =? 239) && (b2z b =? 187) && (b2z c =? 191)) eqn:E; [|reflexivity].
  exfalso. apply NM. apply andb_true_iff in E as [E X]. apply andb_true_iff in E as [E Y]. apply mark_bytes; lia.
Qed.

Lemma encode_char : forall c r, uchar c -> te_encode (utf16_char c ++ r) = utf8_char c ++ te_encode r.
Proof.
  intros c r S. unfold uchar in S. unfold utf16_char. destruct (Z.ltb_spec c 65536); cbn [app te_encode]; unfold is_high, is_low; bools; cbn [andb]; try reflexivity.
  replace (65536 + (55296 + (c - 65536) / 1024 - 55296) * 1024 + (56320 + (c - 65536) mod 1024 - 56320)) with c by lia. reflexivity.
Qed.
Lemma encode_text : forall s j, same_text s j -> te_encode j = s.
Proof.
  intros s j (us & F & -> & ->). induction F as [|c us S _ IH]; [reflexivity|]. cbn [flat_map]. rewrite encode_char, IH by auto. reflexivity.
Qed.
Lemma text_inj : forall s s' j, same_text s j -> same_text s' j -> s = s'.
Proof. intros s s' j A B. rewrite <- (encode_text _ _ A). apply encode_text. auto. Qed.

Lemma jstring_eqb_eq : forall a b, jstring_eqb a b = true <-> a = b.
Proof.
  induction a as [|x a IH]; intros [|y b]; cbn; split; intro H; try reflexivity; try discriminate.
  - apply andb_true_iff in H as [X Y]. apply Z.eqb_eq in X. apply IH in Y. subst. reflexivity.
  - inversion H; subst. rewrite Z.eqb_refl. apply IH. reflexivity.
Qed.

