(** Lemmas about texts in Python. *)
From Coq Require Import Lia Permutation.
From Verif Require Import Base Value Unicode M_Marshal M_BinUnmarshal M_TreeBuilder S_Value S_Wire M_Python S_Python L_Base L_Bits L_RoundTrip
  L_TreeBuilder L_Dup L_BinUnmarshal L_Message L_Wire L_JsText L_JsCall.
Ltac Zify.zify_post_hook ::= Z.div_mod_to_equations.

(** ** Texts *)
Ltac eqbs := repeat match goal with |- context [?a =? ?b] => destruct (Z.eqb_spec a b); try lia end; cbn [andb negb].
Lemma decode_char : forall pass c r, uchar c -> py_decode pass (utf8_char c ++ r) = option_map (cons c) (py_decode pass r).
Proof.
  intros pass c r S. unfold uchar in S. unfold utf8_char.
  destruct (Z.ltb_spec c 128); [|destruct (Z.ltb_spec c 2048); [|destruct (Z.ltb_spec c 65536)]]; cbn [app py_decode].
  - rewrite b2z_small by lia. destruct (Z.ltb_spec c 128); [reflexivity|lia].
  - unfold cont. rewrite !b2z_small by lia. bools; cbn [andb]; f_equal; f_equal; lia.
  - assert (X : exists a b d, c / 4096 = a /\ c / 64 mod 64 = b /\ c mod 64 = d /\ c = (a * 64 + b) * 64 + d /\ 0 <= a < 16 /\ 0 <= b < 64 /\ 0 <= d < 64)
      by (do 3 eexists; do 3 (split; [reflexivity|]); lia).
    destruct X as (a & b & d & -> & -> & -> & -> & A & B & D).
    unfold cont. rewrite !b2z_small by lia. destruct pass; eqbs; bools; cbn [andb]; f_equal; f_equal; lia.
  - assert (X : exists a b d e, c / 262144 = a /\ c / 4096 mod 64 = b /\ c / 64 mod 64 = d /\ c mod 64 = e /\ c = ((a * 64 + b) * 64 + d) * 64 + e
        /\ 0 <= a < 5 /\ 0 <= b < 64 /\ 0 <= d < 64 /\ 0 <= e < 64)
      by (do 4 eexists; do 4 (split; [reflexivity|]); lia).
    destruct X as (a & b & d & e & -> & -> & -> & -> & -> & A & B & D & E).
    unfold cont. rewrite !b2z_small by lia. eqbs; bools; cbn [andb]; f_equal; f_equal; lia.
Qed.
Lemma decode_same : forall pass s u, same_str s u -> py_decode pass s = Some u.
Proof.
  intros pass s u [F ->]. induction F as [|c us S _ IH]; [reflexivity|]. cbn [flat_map]. rewrite decode_char, IH by auto. reflexivity.
Qed.

Lemma cont_range : forall b lo hi, cont b lo hi = true -> lo <= b2z b <= hi.
Proof. intros b lo hi H. unfold cont in H. apply andb_true_iff in H as [A B]. lia. Qed.
Lemma byte_of : forall b z, b2z b = z -> b = z2b z.
Proof. intros b z <-. symmetry. apply z2b_b2z. Qed.

(** What is decoded is the UTF-8 of the result. *)
Lemma decode_char_inv : forall a r u, py_decode false (a :: r) = Some u ->
  exists c r' u', uchar c /\ a :: r = utf8_char c ++ r' /\ u = c :: u' /\ py_decode false r' = Some u' /\ (length r' <= length r)%nat.
Proof.
  intros a r u H. cbn [py_decode] in H. destruct (Z.ltb_spec (b2z a) 128).
  - destruct (py_decode false r) eqn:E; [|discriminate]. inversion H; subst. pose proof (b2z_range a).
    exists (b2z a), r, p. split; [unfold uchar; lia|]. split; [|auto]. unfold utf8_char. bools. rewrite z2b_b2z. reflexivity.
  - destruct ((194 <=? b2z a) && (b2z a <=? 223)) eqn:E2.
    + apply andb_true_iff in E2 as [L1 L2]. destruct r as [|b r]; [discriminate|]. destruct (cont b 128 191) eqn:C; [|discriminate].
      apply cont_range in C. destruct (py_decode false r) eqn:E; [|discriminate]. inversion H; subst.
      eexists _, r, p. split; [|split; [|split; [reflexivity|split; [exact E|cbn; lia]]]].
      * unfold uchar. lia.
      * set (x := b2z a) in *. set (y := b2z b) in *. unfold utf8_char. bools. cbn [app]. f_equal; [|f_equal]; apply byte_of; fold x; fold y; lia.
    + destruct ((224 <=? b2z a) && (b2z a <=? 239)) eqn:E3.
      * apply andb_true_iff in E3 as [L1 L2]. destruct r as [|b [|c r]]; try discriminate.
        destruct (cont b _ _ && cont c 128 191) eqn:C; [|discriminate]. apply andb_true_iff in C as [C1 C2].
        apply cont_range in C1. apply cont_range in C2. destruct (py_decode false r) eqn:E; [|discriminate]. inversion H; subst.
        rewrite andb_true_r in C1.
        eexists _, r, p. split; [|split; [|split; [reflexivity|split; [exact E|cbn; lia]]]].
        -- unfold uchar. destruct (Z.eqb_spec (b2z a) 224); destruct (Z.eqb_spec (b2z a) 237); lia.
        -- set (x := b2z a) in *. set (y := b2z b) in *. set (w := b2z c) in *.
           assert (Q : x = 224 /\ 160 <= y <= 191 \/ x <> 224 /\ 128 <= y <= 191) by (destruct (Z.eqb_spec x 224); destruct (Z.eqb_spec x 237); lia).
           clear C1. unfold utf8_char. bools. cbn [app]. f_equal; [|f_equal; [|f_equal]]; apply byte_of; fold x; fold y; fold w; lia.
      * destruct ((240 <=? b2z a) && (b2z a <=? 244)) eqn:E4; [|discriminate].
        apply andb_true_iff in E4 as [L1 L2]. destruct r as [|b [|c [|d r]]]; try discriminate.
        destruct (cont b _ _ && cont c 128 191 && cont d 128 191) eqn:C; [|discriminate].
        apply andb_true_iff in C as [C C3]. apply andb_true_iff in C as [C1 C2].
        apply cont_range in C1. apply cont_range in C2. apply cont_range in C3. destruct (py_decode false r) eqn:E; [|discriminate]. inversion H; subst.
        eexists _, r, p. split; [|split; [|split; [reflexivity|split; [exact E|cbn; lia]]]].
        -- unfold uchar. destruct (Z.eqb_spec (b2z a) 240); destruct (Z.eqb_spec (b2z a) 244); lia.
        -- set (x := b2z a) in *. set (y := b2z b) in *. set (w := b2z c) in *. set (t := b2z d) in *.
           assert (Q : x = 240 /\ 144 <= y <= 191 \/ 240 < x <= 244 /\ 128 <= y <= 191) by (destruct (Z.eqb_spec x 240); destruct (Z.eqb_spec x 244); lia).
           clear C1. unfold utf8_char. bools. cbn [app]. f_equal; [|f_equal; [|f_equal; [|f_equal]]]; apply byte_of; fold x; fold y; fold w; fold t; lia.
Qed.
Lemma decode_inv : forall s u, py_decode false s = Some u -> same_str s u.
Proof.
  intro s. assert (X : forall n s u, (length s <= n)%nat -> py_decode false s = Some u -> same_str s u); [|intros; eauto].
  induction n as [|n IH]; intros t u L H.
  - destruct t; [|cbn in L; lia]. inversion H; subst. split; [constructor|reflexivity].
  - destruct t as [|a r]; [inversion H; subst; split; [constructor|reflexivity]|].
    destruct (decode_char_inv a r u H) as (c & r' & u' & C & E & -> & D & LR). rewrite E. cbn in L.
    destruct (IH r' u' ltac:(lia) D) as [F Q]. split; [constructor; auto|]. cbn [flat_map]. rewrite Q. reflexivity.
Qed.
Lemma text_decode : forall s, is_text s <-> exists u, py_decode false s = Some u.
Proof. intro s. split; intros [u H]; exists u; [apply decode_same; auto|apply decode_inv; auto]. Qed.
