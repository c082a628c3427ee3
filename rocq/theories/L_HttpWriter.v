(** Lemmas about the buffering writers. *)
From Coq Require Import Lia.
From Verif Require Import Base Text M_Base64 M_Iso M_Url M_Http M_HttpWriter S_Http L_Base L_HttpIO L_Http.

(** ** Hexadecimal numbers *)
Lemma hex_char_digit d : 0 <= d < 16 -> hex_digit (hex_char d) d.
Proof.
  intro H. assert (HC : forall k, (k < 16)%nat -> hex_digit (hex_char (Z.of_nat k)) (Z.of_nat k)).
  { intros k HK. do 16 (destruct k as [|k]; [unfold hex_digit; vm_compute; intuition congruence|]). lia. }
  specialize (HC (Z.to_nat d)). rewrite Z2Nat.id in HC by lia. apply HC. lia.
Qed.

(** The digits before: written in front of a text of digits. *)
Inductive hex_tail : bytes -> Z -> Z -> Prop :=
| tail_nil : hex_tail [] 1 0
| tail_cons : forall c d s w v, hex_digit c d -> hex_tail s w v -> hex_tail (c :: s) (16 * w) (d * w + v).

Lemma hex_tail_number s w v : hex_tail s w v -> forall p n, hex_number p n -> hex_number (p ++ s) (n * w + v).
Proof.
  induction 1 as [|c d s w v HC HT IH]; intros p n HP.
  - rewrite app_nil_r. replace (n * 1 + 0) with n by lia. assumption.
  - replace (p ++ c :: s) with ((p ++ [c]) ++ s) by (rewrite <- app_assoc; reflexivity).
    replace (n * (16 * w) + (d * w + v)) with ((16 * n + d) * w + v) by lia. apply IH. apply hex_more; assumption.
Qed.

Lemma hex_aux_number : forall fuel n acc w v, 0 <= n -> Z.log2 n < Z.of_nat fuel -> hex_tail acc w v ->
  hex_number (hex_aux fuel n acc) (n * w + v).
Proof.
  induction fuel as [|k IH]; intros n acc w v HN HF HT; [pose proof (Z.log2_nonneg n); lia|].
  cbn [hex_aux]. destruct (Z.ltb_spec n 16).
  - rewrite Z.mod_small by lia. change (hex_char n :: acc) with ([hex_char n] ++ acc). apply hex_tail_number with (n := n); [assumption|].
    apply hex_one. apply hex_char_digit. lia.
  - pose proof (Z.mod_pos_bound n 16 ltac:(lia)). pose proof (Z.div_mod n 16 ltac:(lia)).
    replace (n * w + v) with (n / 16 * (16 * w) + (n mod 16 * w + v)) by nia. apply IH.
    + apply Z.div_pos; lia.
    + assert (Z.log2 (n / 16) < Z.log2 n); [|lia].
      apply Z.log2_lt_pow2; [apply Z.div_str_pos; lia|]. pose proof (Z.log2_spec n ltac:(lia)) as [_ HL].
      assert (HP : 4 <= Z.log2 n) by (apply Z.log2_le_pow2; lia).
      apply Z.div_lt_upper_bound; [lia|]. rewrite Z.pow_succ_r in HL by lia. pose proof (Z.pow_pos_nonneg 2 (Z.log2 n)). lia.
    + constructor; [apply hex_char_digit; lia|assumption].
Qed.

Lemma hex_text_number n : 0 <= n -> hex_number (hex_text n) n.
Proof.
  intro H. unfold hex_text. replace n with (n * 1 + 0) at 3 by lia. apply hex_aux_number; [assumption| |constructor].
  rewrite Nat2Z.inj_succ, Z2Nat.id by apply Z.log2_nonneg. lia.
Qed.

(** ** Chunks *)
Inductive chunk_seq : bytes -> bytes -> Prop :=
| seq_nil : chunk_seq [] []
| seq_more : forall data body wire, data <> [] -> chunk_seq body wire ->
    chunk_seq (data ++ body) (hex_text (blen data) ++ crlf ++ data ++ crlf ++ wire).

Lemma chunk_seq_chunked body wire : chunk_seq body wire -> forall body2 tr wire2, chunked body2 tr wire2 ->
  chunked (body ++ body2) tr (wire ++ wire2).
Proof.
  induction 1 as [|data body wire HD HS IH]; intros body2 tr wire2 H2; [assumption|].
  specialize (IH _ _ _ H2).
  replace ((data ++ body) ++ body2) with (data ++ (body ++ body2)) by apply app_assoc.
  replace ((hex_text (blen data) ++ crlf ++ data ++ crlf ++ wire) ++ wire2)
    with (hex_text (blen data) ++ [] ++ crlf ++ data ++ crlf ++ (wire ++ wire2)) by (repeat rewrite <- app_assoc; reflexivity).
  apply chunked_more; try assumption.
  - rewrite blen_zlen. apply hex_text_number. unfold zlen. lia.
  - split; [intros []|left; reflexivity].
Qed.

Lemma chunk_seq_snoc body wire data : chunk_seq body wire -> data <> [] ->
  chunk_seq (body ++ data) (wire ++ hex_text (blen data) ++ crlf ++ data ++ crlf).
Proof.
  induction 1 as [|d b w HD HS IH]; intro HN.
  - pose proof (seq_more data [] [] HN seq_nil) as H. rewrite !app_nil_r in *. exact H.
  - specialize (IH HN). pose proof (seq_more d _ _ HD IH) as H. clear IH. repeat rewrite <- app_assoc in *. exact H.
Qed.

Lemma chunked_end : chunked [] [] (str "0" ++ crlf ++ crlf).
Proof.
  apply (chunked_last (str "0") [] []); [|split; [intros []|left; reflexivity]|constructor].
  apply (hex_one x30 0). left. split; [reflexivity|lia].
Qed.

(** ** The writer in chunked mode *)
Definition winv (head : Z -> bytes) (body : bytes) (w : wr) : Prop :=
  w_chunks w = true /\
  exists sent, body = sent ++ w_back w /\
    (if w_sent w then w_back w <> [] /\ exists t cs, w_wire w = head t ++ cs /\ chunk_seq sent cs
     else sent = [] /\ w_wire w = []).

Lemma wr_write_inv head body w d : winv head body w -> (body = [] -> blen d <= BUFFER_SIZE) -> winv head (body ++ d) (wr_write head d w).
Proof.
  intros (HC & sent & HB & HS) HF. unfold wr_write. set (c := u64 _ <? _). destruct c eqn:EC.
  - rewrite HC. unfold wr_send. cbn [w_chunks w_sent w_front w_back w_total w_wire]. rewrite ?HC. cbn [w_chunks w_sent w_front w_back w_total w_wire app].
    split; [reflexivity|]. exists body.
    assert (HD : d <> []).
    { intro HD. unfold c in EC. apply Z.ltb_lt in EC. unfold u64, unsigned in EC. pose proof (Z.mod_pos_bound (BUFFER_SIZE - blen (w_back w)) (2 ^ 64) ltac:(lia)). rewrite HD in EC. change (blen []) with 0 in EC. lia. }
    assert (HN : w_back w <> []).
    { destruct (w_sent w); [apply HS|]. destruct HS as [-> _]. cbn in HB. intro E. rewrite E in HB. specialize (HF HB).
      unfold c in EC. rewrite E in EC. apply Z.ltb_lt in EC. change (blen []) with 0 in EC. unfold u64, unsigned, BUFFER_SIZE in *. rewrite Z.mod_small in EC by lia. lia. }
    split; [reflexivity|]. split; [assumption|]. rewrite HB. destruct (w_sent w).
    + destruct HS as (_ & t & cs & -> & HS). exists t, (cs ++ hex_text (blen (w_back w)) ++ crlf ++ w_back w ++ crlf).
      split; [repeat rewrite <- app_assoc; reflexivity|]. apply chunk_seq_snoc; assumption.
    + destruct HS as (-> & ->). cbn [app]. exists (u32 (w_total w + blen d)), (hex_text (blen (w_back w)) ++ crlf ++ w_back w ++ crlf).
      split; [reflexivity|]. apply (chunk_seq_snoc [] []); [constructor|assumption].
  - cbn. split; [assumption|]. exists sent. cbn. rewrite HB, <- app_assoc. split; [reflexivity|].
    destruct (w_sent w); [|assumption]. destruct HS as [HN HS]. split; [|assumption]. destruct (w_back w); [congruence|discriminate].
Qed.

Fixpoint small_start (pieces : list bytes) : Prop :=
  match pieces with
  | [] => True
  | d :: r => match d with [] => small_start r | _ => blen d <= BUFFER_SIZE end
  end.

Lemma wr_writes_inv head : forall pieces body w, winv head body w -> (body = [] -> small_start pieces) ->
  winv head (body ++ concat pieces) (fold_left (fun w d => wr_write head d w) pieces w).
Proof.
  induction pieces as [|d r IH]; intros body w HI HS; cbn [fold_left concat].
  - rewrite app_nil_r. assumption.
  - rewrite app_assoc. apply IH.
    + apply wr_write_inv; [assumption|]. intro E. specialize (HS E). cbn in HS. destruct d; [unfold BUFFER_SIZE; cbn; lia|assumption].
    + intro E. apply app_eq_nil in E as [E1 E2]. specialize (HS E1). cbn in HS. subst d. assumption.
Qed.

Lemma wr_message_chunked head pieces : concat pieces <> [] -> small_start pieces ->
  exists t wire, w_wire (wr_message head true pieces) = head t ++ wire /\ chunked (concat pieces) [] wire.
Proof.
  intros HN HS. unfold wr_message, wr_flush, wr_send.
  pose proof (wr_writes_inv head pieces [] (mkWr [] [] true false 0 [])) as HI.
  specialize (HI ltac:(split; [reflexivity|]; exists []; cbn; auto) ltac:(auto)). cbn [app] in HI.
  set (w := fold_left _ _ _) in *. destruct HI as (HC & sent & HB & HI). rewrite HC. cbn [w_wire].
  assert (HF : w_back w <> [] -> forall cs, chunk_seq sent cs ->
     chunked (concat pieces) [] (cs ++ hex_text (blen (w_back w)) ++ crlf ++ w_back w ++ crlf ++ str "0" ++ crlf ++ crlf)).
  { intros HB2 cs HSQ. pose proof (chunk_seq_chunked _ _ (chunk_seq_snoc _ _ _ HSQ HB2) _ _ _ chunked_end) as H.
    rewrite <- HB, app_nil_r in H. repeat rewrite <- app_assoc in H. exact H. }
  destruct (w_sent w).
  - destruct HI as (HNB & t & cs & -> & HSQ). exists t. eexists. split; [repeat rewrite <- app_assoc; reflexivity|]. apply HF; assumption.
  - destruct HI as (-> & ->). cbn [app] in *. exists (w_total w). eexists. split; [reflexivity|].
    apply (HF ltac:(congruence) []). constructor.
Qed.

(** ** Without chunks *)
Lemma plain_inv head : forall pieces w, w_chunks w = false -> w_sent w = false -> w_wire w = [] -> w_total w = u32 (blen (concat (w_front w) ++ w_back w)) ->
  let w' := fold_left (fun w d => wr_write head d w) pieces w in
  w_chunks w' = false /\ w_sent w' = false /\ w_wire w' = [] /\
  concat (w_front w') ++ w_back w' = (concat (w_front w) ++ w_back w) ++ concat pieces /\
  w_total w' = u32 (blen (concat (w_front w') ++ w_back w')).
Proof.
  induction pieces as [|d r IH]; intros w HC HS HW HT; cbn [fold_left concat].
  - cbv zeta. rewrite app_nil_r. auto.
  - assert (HT2 : forall x, x = concat (w_front w) ++ w_back w ++ d -> u32 (w_total w + blen d) = u32 (blen x)).
    { intros x ->. rewrite HT, app_assoc, (blen_app _ d). unfold u32, unsigned. apply Zplus_mod_idemp_l. }
    assert (HG : exists w1, wr_write head d w = w1 /\ w_chunks w1 = false /\ w_sent w1 = false /\ w_wire w1 = [] /\
                 concat (w_front w1) ++ w_back w1 = (concat (w_front w) ++ w_back w) ++ d /\ w_total w1 = u32 (blen (concat (w_front w1) ++ w_back w1))).
    { unfold wr_write. rewrite HC. destruct (_ <? blen d).
      - destruct (BUFFER_SIZE <? blen d); cbn; (eexists; split; [reflexivity|]); cbn; repeat split; auto.
        + rewrite concat_app. cbn. rewrite app_nil_r. reflexivity.
        + apply HT2. rewrite concat_app. cbn. rewrite app_nil_r, <- app_assoc. reflexivity.
        + rewrite <- app_assoc. reflexivity.
      - cbn; (eexists; split; [reflexivity|]); cbn; repeat split; auto. rewrite <- app_assoc. reflexivity. }
    destruct HG as (w1 & E & HC1 & HS1 & HW1 & HB1 & HT1). rewrite E.
    destruct (IH w1 HC1 HS1 HW1 HT1) as (A & B & C & D & F). repeat split; try assumption. rewrite D, HB1. repeat rewrite <- app_assoc. reflexivity.
Qed.

Lemma wr_message_plain head pieces : w_wire (wr_message head false pieces) = head (u32 (blen (concat pieces))) ++ concat pieces.
Proof.
  unfold wr_message, wr_flush, wr_send.
  destruct (plain_inv head pieces (mkWr [] [] false false 0 []) eq_refl eq_refl eq_refl eq_refl) as (A & B & C & D & F).
  set (w := fold_left _ _ _) in *. rewrite A. cbn [w_wire]. rewrite B, C, F, D. reflexivity.
Qed.

(** ** Where the pieces start *)
Lemma pieces_start e first rest : first <> [] -> zlen first <= 64512 ->
  concat (repeat [] e ++ first :: rest) <> [] /\ small_start (repeat [] e ++ first :: rest).
Proof.
  intros HN HS. rewrite <- blen_zlen in HS. induction e as [|e [IH1 IH2]].
  - cbn [repeat app concat]. split; [intro E; apply app_eq_nil in E; tauto|]. cbn. destruct first; [congruence|exact HS].
  - cbn [repeat app concat]. split; assumption.
Qed.

Lemma wr_write_wire head d w : exists x, w_wire (wr_write head d w) = w_wire w ++ x.
Proof.
  unfold wr_write, wr_send. cbv zeta.
  destruct (u64 _ <? _); destruct (w_chunks w) eqn:EC; try (destruct (BUFFER_SIZE <? blen d));
    cbn [w_wire w_chunks]; try (exists []; rewrite app_nil_r; reflexivity); rewrite ?EC; cbn [w_wire]; eexists; repeat rewrite <- app_assoc; reflexivity.
Qed.
Lemma wr_writes_wire head : forall pieces w, exists x, w_wire (fold_left (fun w d => wr_write head d w) pieces w) = w_wire w ++ x.
Proof.
  induction pieces as [|d r IH]; intro w; cbn [fold_left]; [exists []; rewrite app_nil_r; reflexivity|].
  destruct (IH (wr_write head d w)) as (x & E). destruct (wr_write_wire head d w) as (y & E2). exists (y ++ x). rewrite E, E2, app_assoc. reflexivity.
Qed.
Lemma wr_writes_chunks head : forall pieces w, w_chunks w = true -> w_chunks (fold_left (fun w d => wr_write head d w) pieces w) = true.
Proof.
  induction pieces as [|d r IH]; intros w HC; cbn [fold_left]; [assumption|]. apply IH. unfold wr_write, wr_send. cbv zeta. rewrite HC.
  destruct (u64 _ <? _); cbn [w_chunks]; reflexivity.
Qed.

Lemma big_start head big rest : BUFFER_SIZE < blen big ->
  exists t after, w_wire (wr_message head true (big :: rest)) = head t ++ (str "0" ++ crlf ++ crlf) ++ after /\ after <> [].
Proof.
  intro HB. unfold wr_message, wr_flush. cbn [fold_left].
  assert (E : w_wire (wr_write head big (mkWr [] [] true false 0 [])) = head (u32 (0 + blen big)) ++ str "0" ++ crlf ++ crlf /\
              w_chunks (wr_write head big (mkWr [] [] true false 0 [])) = true).
  { unfold wr_write, wr_send. cbv zeta. cbn [w_back w_chunks w_sent w_front w_total w_wire]. change (blen []) with 0.
    change (u64 (BUFFER_SIZE - 0)) with BUFFER_SIZE. replace (BUFFER_SIZE <? blen big) with true by (symmetry; apply Z.ltb_lt; assumption).
    cbn [w_wire w_chunks]. split; reflexivity. }
  set (w0 := wr_write _ _ _) in *. destruct E as [E1 E2]. destruct (wr_writes_wire head rest w0) as (x & EX). pose proof (wr_writes_chunks head rest w0 E2) as HC.
  set (w1 := fold_left _ _ _) in *. unfold wr_send. rewrite HC. cbn [w_wire]. rewrite EX, E1.
  exists (u32 (0 + blen big)). eexists. split; [repeat rewrite <- app_assoc; reflexivity|].
  intro E. apply app_eq_nil in E as [_ E]. apply app_eq_nil in E as [_ E]. apply app_eq_nil in E as [_ E]. apply app_eq_nil in E as [E _]. discriminate.
Qed.

Lemma hex_number_chars s n : hex_number s n -> s <> [] /\ forall c, In c s -> exists d, hex_digit c d.
Proof.
  induction 1 as [c d H|s n c d HS [IH1 IH2] HD].
  - split; [discriminate|]. intros x [<-|[]]. eauto.
  - split; [destruct s; discriminate|]. intros x HX. apply in_app_or in HX as [HX|[<-|[]]]; eauto.
Qed.
Lemma cr_not_hex d : ~ hex_digit x0d d.
Proof. unfold hex_digit. change (b2z x0d) with 13. lia. Qed.

Lemma zero_size size n ext x y : hex_number size n -> chunk_ext ext -> size ++ ext ++ x = (str "0" ++ crlf) ++ y -> n = 0 /\ ext ++ x = crlf ++ y.
Proof.
  intros HS HX E. destruct (hex_number_chars _ _ HS) as [HN HC]. destruct size as [|a size]; [congruence|].
  change ((str "0" ++ crlf) ++ y) with (x30 :: x0d :: x0a :: y) in E. inversion E as [[EA ER]]. subst a.
  destruct size as [|b size].
  - split; [|exact ER]. inversion HS as [c d HD E1 E2|s m c d HM HD E1 E2].
    + subst. unfold hex_digit in HD. change (b2z x30) with 48 in HD. lia.
    + destruct s as [|z s]; [destruct (hex_number_chars _ _ HM); congruence|]. destruct s; discriminate.
  - inversion ER as [[EB ER2]]. subst b. destruct (HC x0d) as (d & HD); [right; left; reflexivity|]. elim (cr_not_hex _ HD).
Qed.

Lemma zero_not_chunked body tr x : body <> [] -> ~ chunked body tr ((str "0" ++ crlf ++ crlf) ++ x).
Proof.
  intros HB H. inversion H as [size ext tr' HN HX HF E1 E2 E3|size ext data b tr' wire HN HD HX HW E1 E2 E3]; [congruence|].
  replace ((str "0" ++ crlf ++ crlf) ++ x) with ((str "0" ++ crlf) ++ (crlf ++ x)) in E3 by reflexivity.
  eapply zero_size in E3 as [E3 _]; [|eassumption|assumption]. destruct data; [congruence|]. unfold zlen in E3. cbn in E3. lia.
Qed.

(** ** The heads *)
Lemma other_name a b : bytes_eqb (map ascii_lower a) (map ascii_lower b) = false -> ~ same_name a b.
Proof. unfold same_name. intros H E. rewrite E, bytes_eqb_refl in H. discriminate. Qed.

Lemma client_length k n : k_chunks k = false -> first_value (str "Content-Length") (client_fields k n) (dec n).
Proof.
  intro HC. unfold first_value, client_fields. rewrite HC.
  set (hd := if k_http10 k then [] else _).
  exists (hd ++ [(str "Content-Type", if k_binary k then str "application/x-frpc" else str "text/xml");
                 (str "Accept", str "text/xml, application/x-frpc"); (str "Connection", if k_keep k then str "keep-alive" else str "close")]),
         (str "Content-Length"), (k_custom k). split; [|split].
  - rewrite <- app_assoc. reflexivity.
  - reflexivity.
  - unfold hd. apply Forall_app. split; [destruct (k_http10 k); [constructor|]|]; repeat constructor; apply other_name; reflexivity.
Qed.
Lemma server_length o u kp ex n : first_value (str "Content-Length") (server_fields o u kp false ex n) (dec n).
Proof.
  unfold first_value, server_fields.
  eexists [_; _; _], (str "Content-Length"), _. split; [reflexivity|]. split; [reflexivity|]. repeat constructor; apply other_name; reflexivity.
Qed.

Lemma one_line_app a b : one_line a -> one_line b -> one_line (a ++ b).
Proof. unfold one_line. intros HA HB H. apply in_app_or in H. tauto. Qed.
Lemma one_line_dec s : existsb (byte_eqb x0a) s = false -> one_line s.
Proof.
  intros H HI. assert (existsb (byte_eqb x0a) s = true); [|congruence]. apply existsb_exists. exists x0a. split; [assumption|reflexivity].
Qed.

Lemma client_head_parts k n : k_chunks k = false -> one_line (u_path (k_url k)) ->
  exists line fields, client_head k n = line ++ crlf ++ flat_map field_text fields ++ crlf /\ one_line line /\
    first_value (str "Content-Length") fields (dec n).
Proof.
  intros HC HP. exists (str "POST " ++ (if url_is_unix (k_url k) then str "/" else u_path (k_url k)) ++ [x20] ++
    (if k_http10 k then str "HTTP/1.0" else str "HTTP/1.1")), (client_fields k n). split; [|split].
  - unfold client_head, header_text, field_text. repeat rewrite <- app_assoc. reflexivity.
  - repeat apply one_line_app; try (apply one_line_dec; reflexivity).
    + destruct (url_is_unix _); [apply one_line_dec; reflexivity|assumption].
    + destruct (k_http10 k); apply one_line_dec; reflexivity.
  - apply client_length. assumption.
Qed.
