(** C126: text read by the JavaScript binding is the text sent, or shows a replacement character. *)
From Coq Require Import Lia.
From Verif Require Import Base Value Unicode Text M_Marshal M_Js S_Js L_Base L_JsText L_JsHonest.

(** Whatever bytes are read as text: if no replacement character (U+FFFD) appears, the bytes are the UTF-8 of exactly the text read, or
    of a byte order mark and the text read. *)
Theorem C126_text_partial : forall s, ~ In 65533 (td_decode s) ->
  same_text s (td_decode s) \/ exists r, s = utf8_char 65279 ++ r /\ same_text r (td_decode s).
Proof. exact decode_honest. Qed.
Print Assumptions C126_text_partial.
(** What is no UTF-8 shows a replacement character. *)
Theorem C126_not_utf8 : forall s, ~ utf8 s -> In 65533 (td_decode s).
Proof.
  intros s N. destruct (in_dec Z.eq_dec 65533 (td_decode s)) as [I|I]; [exact I|]. exfalso. apply N.
  destruct (decode_honest s I) as [H|(r & -> & us & F & -> & _)]; [exists (td_decode s); exact H|].
  exists (flat_map utf16_char (65279 :: us)), (65279 :: us). split; [constructor; [right; lia|exact F]|]. split; reflexivity.
Qed.
Print Assumptions C126_not_utf8.
(** Two texts that are read alike without a replacement character and do not begin with a byte order mark are the same. *)
Theorem C126_told_apart_partial : forall s t, ~ In 65533 (td_decode s) -> ~ marked s -> ~ marked t -> td_decode s = td_decode t -> s = t.
Proof.
  intros s t N A B E. destruct (decode_honest s N) as [S|(r & S & _)]; [|exfalso; apply A; exists r; exact S].
  rewrite E in N. destruct (decode_honest t N) as [T|(r & T & _)]; [|exfalso; apply B; exists r; exact T].
  apply encode_text in S. apply encode_text in T. congruence.
Qed.
Print Assumptions C126_told_apart_partial.
(** A string inside a message, if all of it is there. *)
Theorem C126_string_partial : forall max n d j r, 0 <= n <= blen d -> decode_utf8 max n d = JOk (j, r) -> ~ In 65533 j -> ~ marked (ztake n d) ->
  same_text (ztake n d) j /\ d = ztake n d ++ r.
Proof.
  intros max n d j r L E N M. unfold decode_utf8 in E. destruct (max <? n); [discriminate|]. inversion E; subst. replace (Z.to_nat (n - blen d)) with 0%nat in * by lia. cbn [repeat] in *.
  rewrite app_nil_r in *. destruct (decode_honest _ N) as [S|(r & S & _)]; [|exfalso; apply M; exists r; exact S]. split; [exact S|]. symmetry. apply firstn_skipn.
Qed.
Print Assumptions C126_string_partial.
(** Refuted: a text that is cut off is read with a NUL for each byte that is missing, without an error. *)
Theorem C126_cut_refuted : forall max us n, Forall uchar us -> ~ marked (flat_map utf8_char us) -> us <> [] -> let s := flat_map utf8_char us in blen s < n <= max ->
  exists j, same_text s j /\ decode_utf8 max n s = JOk (j ++ repeat 0 (Z.to_nat (n - blen s)), []).
Proof.
  intros max us n F M NE s L. exists (flat_map utf16_char us). split; [exists us; auto|].
  unfold decode_utf8. assert (X: max <? n = false) by (apply Z.ltb_ge; lia). rewrite X.
  assert (T: ztake n s = s) by (unfold ztake; apply firstn_all2; unfold blen in L; lia). assert (D: zdrop n s = []) by (unfold zdrop; apply skipn_all2; unfold blen in L; lia).
  rewrite T, D. rewrite decode_unmarked.
  - unfold s at 1. rewrite run_zeros by exact F. reflexivity.
  - intros r E. destruct us as [|c us]; [congruence|]. inversion F as [|c' us' U F']; subst.
    assert (H: td_run Dec_start (s ++ repeat x00 (Z.to_nat (n - blen s))) = td_run Dec_start (utf8_char 65279 ++ r)) by (rewrite E; reflexivity).
    rewrite (run_char 65279 r) in H by (right; lia). unfold s in H. rewrite run_zeros in H by exact F. cbn [flat_map] in H. change (utf16_char 65279) with [65279] in H.
    assert (C: c = 65279).
    { unfold uchar in U. unfold utf16_char in H. destruct (Z.ltb_spec c 65536); cbn [app] in H; apply (f_equal (hd 0)) in H; cbn [hd] in H; [exact H|].
      exfalso. assert (Q: 0 <= (c - 65536) / 1024 < 1024) by (split; [apply Z.div_pos; lia|apply Z.div_lt_upper_bound; lia]). lia. }
    apply M. exists (flat_map utf8_char us). rewrite C. reflexivity.
Qed.
Print Assumptions C126_cut_refuted.
(** Refuted: of a text that begins with a byte order mark the mark is lost. *)
Theorem C126_mark_refuted : forall us, Forall uchar us -> td_decode (utf8_char 65279 ++ flat_map utf8_char us) = flat_map utf16_char us /\
  same_text (flat_map utf8_char us) (flat_map utf16_char us).
Proof. intros us F. split; [|exists us; auto]. rewrite <- (run_text us) by exact F. reflexivity. Qed.
Print Assumptions C126_mark_refuted.

(** Not vacuous. *)
Example C126_ex : ~ In 65533 (td_decode (str "caf" ++ utf8_char 233 ++ utf8_char 128512)) /\ td_decode (str "caf" ++ utf8_char 233 ++ utf8_char 128512) = map b2z (str "caf") ++ [233; 55357; 56832] /\
  ~ marked (str "caf") /\ td_decode [xe1; x7f; x80] = [65533; 127; 65533] /\ td_decode [xed; xa0; x80] = [65533; 65533; 65533].
Proof.
  split; [|split; [reflexivity|split; [|split; reflexivity]]].
  - vm_compute. intro H. repeat destruct H as [H|H]; try discriminate H. destruct H.
  - intros (r & E). vm_compute in E. discriminate.
Qed.
Example C126_cut_ex : decode_utf8 (2 ^ 31) 5 (str "abc") = JOk (map b2z (str "abc") ++ [0; 0], []) /\ decode_utf8 (2 ^ 31) 3 (str "abcd") = JOk (map b2z (str "abc"), str "d").
Proof. split; reflexivity. Qed.
