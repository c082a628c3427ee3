(** What JavaScript reads without a replacement character is the text sent. *)
From Coq Require Import Lia.
From Verif Require Import Base Value Unicode M_Js S_Js L_Base L_Bits L_RoundTrip L_JsText.
Ltac Zify.zify_post_hook ::= Z.div_mod_to_equations.

Lemma head_char : forall a s, ~ In 65533 (td_run Dec_start (a :: s)) -> exists c r, uchar c /\ a :: s = utf8_char c ++ r.
Proof.
  intros a s H. cbn [td_run] in H. pose proof (b2z_range a) as RA. assert (EA := z2b_b2z a). set (A := b2z a) in *. clearbody A.
  unfold dec_first in H.
  destruct (Z.ltb_spec A 128).
  { exists A, s. split; [left; lia|]. unfold utf8_char. bools. cbn [app]. rewrite EA. reflexivity. }
  destruct ((194 <=? A) && (A <=? 223)) eqn:E2.
  { apply andb_true_iff in E2. destruct E2 as (E2 & E2'). apply Z.leb_le in E2, E2'.
    cbn [app] in H. destruct s as [|b s]; [exfalso; apply H; left; reflexivity|]. cbn [td_run] in H.
    pose proof (b2z_range b) as RB. assert (EB := z2b_b2z b). set (B := b2z b) in *. clearbody B.
    destruct ((128 <=? B) && (B <=? 191)) eqn:EB1; [|exfalso; apply H; destruct (dec_first B); left; reflexivity].
    apply andb_true_iff in EB1. destruct EB1 as (B1 & B2). apply Z.leb_le in B1, B2.
    exists ((A - 192) * 64 + (B - 128)), s. split; [left; lia|]. unfold utf8_char. bools. cbn [app].
    rewrite <- EA at 1. rewrite <- EB at 1. f_equal; [f_equal; lia|]. f_equal. f_equal. lia. }
  destruct ((224 <=? A) && (A <=? 239)) eqn:E3.
  { apply andb_true_iff in E3. destruct E3 as (E3 & E3'). apply Z.leb_le in E3, E3'.
    cbn [app] in H. destruct s as [|b s]; [exfalso; apply H; left; reflexivity|]. cbn [td_run] in H.
    pose proof (b2z_range b) as RB. assert (EB := z2b_b2z b). set (B := b2z b) in *. clearbody B.
    destruct (((if A =? 224 then 160 else 128) <=? B) && (B <=? (if A =? 237 then 159 else 191))) eqn:EB1; [|exfalso; apply H; destruct (dec_first B); left; reflexivity].
    apply andb_true_iff in EB1. destruct EB1 as (B1 & B2). apply Z.leb_le in B1, B2.
    destruct s as [|d s]; [exfalso; apply H; left; reflexivity|]. cbn [td_run] in H.
    pose proof (b2z_range d) as RD. assert (ED := z2b_b2z d). set (D := b2z d) in *. clearbody D.
    destruct ((128 <=? D) && (D <=? 191)) eqn:ED1; [|exfalso; apply H; destruct (dec_first D); left; reflexivity].
    apply andb_true_iff in ED1. destruct ED1 as (D1 & D2). apply Z.leb_le in D1, D2. clear H.
    exists (((A - 224) * 64 + (B - 128)) * 64 + (D - 128)), s.
    assert (G: 2048 <= ((A - 224) * 64 + (B - 128)) * 64 + (D - 128) < 65536) by (destruct (Z.eqb_spec A 224), (Z.eqb_spec A 237); lia).
    split; [destruct (Z.eqb_spec A 224), (Z.eqb_spec A 237); [lia|left; lia|left; lia|destruct (Z.ltb_spec A 237); [left; lia|right; lia]]|].
    clear E2 E3 E3'. assert (B3: 128 <= B <= 191) by (destruct (Z.eqb_spec A 224), (Z.eqb_spec A 237); lia). clear B1 B2.
    unfold utf8_char. bools. cbn [app].
    rewrite <- EA at 1. rewrite <- EB at 1. rewrite <- ED at 1. f_equal; [f_equal; lia|]. f_equal; [f_equal; lia|]. f_equal. f_equal. lia. }
  destruct ((240 <=? A) && (A <=? 244)) eqn:E4; [|exfalso; apply H; left; reflexivity].
  apply andb_true_iff in E4. destruct E4 as (E4 & E4'). apply Z.leb_le in E4, E4'.
  cbn [app] in H. destruct s as [|b s]; [exfalso; apply H; left; reflexivity|]. cbn [td_run] in H.
  pose proof (b2z_range b) as RB. assert (EB := z2b_b2z b). set (B := b2z b) in *. clearbody B.
  destruct (((if A =? 240 then 144 else 128) <=? B) && (B <=? (if A =? 244 then 143 else 191))) eqn:EB1; [|exfalso; apply H; destruct (dec_first B); left; reflexivity].
  apply andb_true_iff in EB1. destruct EB1 as (B1 & B2). apply Z.leb_le in B1, B2.
  destruct s as [|d s]; [exfalso; apply H; left; reflexivity|]. cbn [td_run] in H.
  pose proof (b2z_range d) as RD. assert (ED := z2b_b2z d). set (D := b2z d) in *. clearbody D.
  destruct ((128 <=? D) && (D <=? 191)) eqn:ED1; [|exfalso; apply H; destruct (dec_first D); left; reflexivity].
  apply andb_true_iff in ED1. destruct ED1 as (D1 & D2). apply Z.leb_le in D1, D2.
  destruct s as [|e s]; [exfalso; apply H; left; reflexivity|]. cbn [td_run] in H.
  pose proof (b2z_range e) as RE. assert (EE := z2b_b2z e). set (E := b2z e) in *. clearbody E.
  destruct ((128 <=? E) && (E <=? 191)) eqn:EE1; [|exfalso; apply H; destruct (dec_first E); left; reflexivity].
  apply andb_true_iff in EE1. destruct EE1 as (F1 & F2). apply Z.leb_le in F1, F2. clear H E2 E3.
  exists ((((A - 240) * 64 + (B - 128)) * 64 + (D - 128)) * 64 + (E - 128)), s.
  assert (B3: 128 <= B <= 191) by (destruct (Z.eqb_spec A 240), (Z.eqb_spec A 244); lia).
  assert (G: 65536 <= (((A - 240) * 64 + (B - 128)) * 64 + (D - 128)) * 64 + (E - 128) < 1114112) by (destruct (Z.eqb_spec A 240), (Z.eqb_spec A 244); lia).
  split; [right; lia|]. clear B1 B2.
  unfold utf8_char. bools. cbn [app].
  rewrite <- EA at 1. rewrite <- EB at 1. rewrite <- ED at 1. rewrite <- EE at 1.
  f_equal; [f_equal; lia|]. f_equal; [f_equal; lia|]. f_equal; [f_equal; lia|]. f_equal. f_equal. lia.
Qed.

Lemma char_nonempty : forall c, utf8_char c <> [].
Proof. intro c. unfold utf8_char. destruct (c <? 128), (c <? 2048), (c <? 65536); discriminate. Qed.

Lemma run_honest : forall n s, (length s <= n)%nat -> ~ In 65533 (td_run Dec_start s) -> same_text s (td_run Dec_start s).
Proof.
  induction n as [|n IH]; intros s L H.
  - destruct s; [|cbn in L; lia]. exists []. repeat split. constructor.
  - destruct s as [|a s]; [exists []; repeat split; constructor|].
    destruct (head_char a s H) as (c & r & U & E). rewrite E in *. rewrite run_char in * by exact U.
    destruct (IH r) as (us & F & E1 & E2).
    + apply (f_equal (@length _)) in E. rewrite app_length in *. pose proof (char_nonempty c) as N. destruct (utf8_char c); [congruence|]. cbn [length] in *. lia.
    + intro X. apply H. apply in_or_app. right. exact X.
    + exists (c :: us). split; [constructor; assumption|]. split; cbn [flat_map]; congruence.
Qed.

Lemma decode_honest : forall s, ~ In 65533 (td_decode s) -> same_text s (td_decode s) \/ exists r, s = utf8_char 65279 ++ r /\ same_text r (td_decode s).
Proof.
  intros s H. unfold td_decode in *. destruct s as [|a [|b [|c r]]]; try (left; eapply run_honest; [reflexivity|exact H]).
  destruct ((b2z a =? 239) && (b2z b =? 187) && (b2z c =? 191)) eqn:E; [|left; eapply run_honest; [reflexivity|exact H]].
  right. exists r. split; [|eapply run_honest; [reflexivity|exact H]].
  apply andb_true_iff in E as [E X]. apply andb_true_iff in E as [E Y]. apply Z.eqb_eq in E, X, Y.
  unfold utf8_char. cbn [Z.ltb Z.compare Pos.compare Pos.compare_cont app].
  rewrite <- (z2b_b2z a), <- (z2b_b2z b), <- (z2b_b2z c), E, X, Y. reflexivity.
Qed.

Lemma run_zeros : forall us n, Forall uchar us -> td_run Dec_start (flat_map utf8_char us ++ repeat x00 n) = flat_map utf16_char us ++ repeat 0 n.
Proof.
  induction 1 as [|c us U F IH]; cbn [flat_map app].
  - induction n as [|n IH]; [reflexivity|]. cbn [repeat td_run]. change (dec_first (b2z x00)) with (Dec_start, [0]). cbn [app]. rewrite IH. reflexivity.
  - rewrite <- !app_assoc, run_char, IH by exact U. reflexivity.
Qed.
Lemma decode_unmarked : forall s z, (forall r, s ++ z <> utf8_char 65279 ++ r) -> td_decode (s ++ z) = td_run Dec_start (s ++ z).
Proof.
  intros s z N. unfold td_decode. destruct (s ++ z) as [|a [|b [|c r]]]; try reflexivity.
  destruct ((b2z a =? 239) && (b2z b =? 187) && (b2z c =? 191)) eqn:E; [|reflexivity]. exfalso. apply (N r).
  apply andb_true_iff in E as [E X]. apply andb_true_iff in E as [E Y]. apply Z.eqb_eq in E, X, Y.
  unfold utf8_char. cbn [Z.ltb Z.compare Pos.compare Pos.compare_cont app].
  rewrite <- (z2b_b2z a), <- (z2b_b2z b), <- (z2b_b2z c), E, X, Y. reflexivity.
Qed.
