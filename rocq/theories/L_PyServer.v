(** Lemmas about the Python server: results, the writer, reading requests. *)
From Coq Require Import Lia.
From Verif Require Import Base Value Text Unicode M_Marshal M_BinUnmarshal M_TreeBuilder M_Base64 M_Iso M_Url M_Http M_HttpIO M_HttpWriter M_Registry M_Server M_Python M_PyRegistry M_PyServer
  S_Value S_Http S_Registry S_Server S_Python S_PyRegistry S_PyServer L_Base L_Http L_HttpIO L_HttpIO2 L_HttpIO3 L_HttpIO4 L_HttpIO5 L_HttpWriter L_Registry P_HttpIO P_HttpWriter P_Registry
  L_Server L_Server2 L_Python L_PyText L_PyRegistry.

(** * Results *)
Scheme describes_mind := Minimality for describes Sort Prop
  with describes_all_mind := Minimality for describes_all Sort Prop
  with describes_items_mind := Minimality for describes_items Sort Prop.
Combined Scheme describes_mutind from describes_mind, describes_all_mind, describes_items_mind.

Lemma encode_of : forall s u, same_str s u -> py_encode u = Some s.
Proof.
  intros s u [U ->]. assert (IS : is_str u) by (unfold is_str; eapply Forall_impl; [|exact U]; intros a A; unfold uchar in A; lia).
  destruct (encode_str u IS) as [[_ X]|[X _]]; [exact X|contradiction].
Qed.
Lemma describes_feed : forall host,
  (forall p cs, describes host p cs -> feed_py host p = (cs, None)) /\
  (forall l cs, describes_all host l cs -> feed_seq (feed_py host) l = (cs, None)) /\
  (forall m cs, describes_items host m cs -> feed_items (feed_py host) m = (cs, None)).
Proof.
  intro host. apply describes_mutind; try (intros; reflexivity).
  - intros z H. cbn [feed_py]. rewrite as_int_spec by (unfold in_s64 in H; lia).
    replace ((- 2 ^ 63 <=? z) && (z <? 2 ^ 63)) with true by (symmetry; unfold in_s64 in H; rewrite andb_true_iff, Z.leb_le, Z.ltb_lt; lia). reflexivity.
  - intros s u H. cbn [feed_py]. rewrite (encode_of _ _ H). reflexivity.
  - intros l cs HL _ E. cbn [feed_py]. rewrite E. pose proof (zlen_nonneg _ l). rewrite u32_id by (unfold in_u32; lia). reflexivity.
  - intros l cs HL _ E. cbn [feed_py]. rewrite E. pose proof (zlen_nonneg _ l). rewrite u32_id by (unfold in_u32; lia). reflexivity.
  - intros l cs HL _ E. cbn [feed_py]. rewrite E. pose proof (zlen_nonneg _ l). rewrite u32_id by (unfold in_u32; lia). reflexivity.
  - intros p cs l cs' _ E1 _ E2. change (feed_seq (feed_py host) (p :: l)) with (match feed_py host p with (c, Some e) => (c, Some e) | (c, None) => let '(c', e) := feed_seq (feed_py host) l in (c ++ c', e) end).
    rewrite E1, E2. reflexivity.
  - intros s u p cs m cs' HS _ E1 _ E2.
    change (feed_items (feed_py host) ((PyStr u, p) :: m)) with (match py_encode u with None => ([], Some PE_Encode) | Some k => match feed_py host p with (c, Some e) => (PMember k :: c, Some e) | (c, None) => let '(c', e) := feed_items (feed_py host) m in (PMember k :: c ++ c', e) end end).
    rewrite (encode_of _ _ HS), E1, E2. reflexivity.
Qed.
Lemma result_message_calls : forall host v cs, result_message host v cs -> result_calls host v = (cs, None).
Proof.
  intros host v cs [v' cs' HN H|code msg u HC HS].
  - apply describes_feed in H. unfold result_calls. rewrite H. destruct v'; try reflexivity. exfalso. eapply HN. reflexivity.
  - unfold result_calls. cbn [as_long]. replace ((- 2 ^ 63 <=? code) && (code <? 2 ^ 63)) with true by (symmetry; unfold in_s32 in HC; rewrite andb_true_iff, Z.leb_le, Z.ltb_lt; lia).
    rewrite (encode_of _ _ HS), s32_id by exact HC. reflexivity.
Qed.
Lemma marshal_written : forall m cs body, written m cs body -> py_marshal m (cs, None) = (body, Mar_done).
Proof. intros m cs body (o & s & R & ->). unfold py_marshal. cbn [fst snd]. rewrite R. reflexivity. Qed.

(** * The writer in chunked mode *)
Lemma pw_write_inv head body w d : winv head body w -> (body = [] -> blen d <= PY_BUFFER_SIZE) -> winv head (body ++ d) (pw_write head d w).
Proof.
  intros (HC & sent & HB & HS) HF. unfold pw_write. set (c := u64 _ <? _). destruct c eqn:EC.
  - rewrite HC. unfold wr_send. cbn [w_chunks w_sent w_front w_back w_total w_wire]. rewrite ?HC. cbn [w_chunks w_sent w_front w_back w_total w_wire app].
    split; [reflexivity|]. exists body.
    assert (HD : d <> []).
    { intro HD. unfold c in EC. apply Z.ltb_lt in EC. unfold u64, unsigned in EC. pose proof (Z.mod_pos_bound (PY_BUFFER_SIZE - blen (w_back w)) (2 ^ 64) ltac:(lia)). rewrite HD in EC. change (blen []) with 0 in EC. lia. }
    assert (HN : w_back w <> []).
    { destruct (w_sent w); [apply HS|]. destruct HS as [-> _]. cbn in HB. intro E. rewrite E in HB. specialize (HF HB).
      unfold c in EC. rewrite E in EC. apply Z.ltb_lt in EC. change (blen []) with 0 in EC. unfold u64, unsigned, PY_BUFFER_SIZE in *. rewrite Z.mod_small in EC by lia. lia. }
    split; [reflexivity|]. split; [assumption|]. rewrite HB. destruct (w_sent w).
    + destruct HS as (_ & t & cs & -> & HS). exists t, (cs ++ hex_text (blen (w_back w)) ++ crlf ++ w_back w ++ crlf).
      split; [repeat rewrite <- app_assoc; reflexivity|]. apply chunk_seq_snoc; assumption.
    + destruct HS as (-> & ->). cbn [app]. exists (u64 (w_total w + blen d)), (hex_text (blen (w_back w)) ++ crlf ++ w_back w ++ crlf).
      split; [reflexivity|]. apply (chunk_seq_snoc [] []); [constructor|assumption].
  - cbn. split; [assumption|]. exists sent. cbn. rewrite HB, <- app_assoc. split; [reflexivity|].
    destruct (w_sent w); [|assumption]. destruct HS as [HN HS]. split; [|assumption]. destruct (w_back w); [congruence|discriminate].
Qed.
Lemma pw_writes_inv head : forall pieces body w, winv head body w -> (body = [] -> small_start pieces) ->
  winv head (body ++ concat pieces) (fold_left (fun w d => pw_write head d w) pieces w).
Proof.
  induction pieces as [|d r IH]; intros body w HI HS; cbn [fold_left concat].
  - rewrite app_nil_r. assumption.
  - rewrite app_assoc. apply IH.
    + apply pw_write_inv; [assumption|]. intro E. specialize (HS E). cbn in HS. destruct d; [unfold PY_BUFFER_SIZE; cbn; lia|unfold BUFFER_SIZE, PY_BUFFER_SIZE in *; lia].
    + intro E. apply app_eq_nil in E as [E1 E2]. specialize (HS E1). cbn in HS. subst d. assumption.
Qed.
Definition pw_message (head : Z -> bytes) (chunks : bool) (pieces : list bytes) : wr :=
  wr_flush head (fold_left (fun w d => pw_write head d w) pieces (mkWr [] [] chunks false 0 [])).
Lemma pw_message_chunked head pieces : concat pieces <> [] -> small_start pieces ->
  exists t wire, w_wire (pw_message head true pieces) = head t ++ wire /\ chunked (concat pieces) [] wire.
Proof.
  intros HN HS. unfold pw_message, wr_flush, wr_send.
  pose proof (pw_writes_inv head pieces [] (mkWr [] [] true false 0 [])) as HI.
  specialize (HI ltac:(split; [reflexivity|]; exists []; cbn; auto) ltac:(auto)). cbn [app] in HI.
  set (w := fold_left _ _ _) in *. destruct HI as (HC & sent & HB & HI). rewrite HC. cbn [w_wire].
  assert (HF : w_back w <> [] -> forall cs, chunk_seq sent cs ->
     chunked (concat pieces) [] (cs ++ hex_text (blen (w_back w)) ++ crlf ++ w_back w ++ crlf ++ str "0" ++ crlf ++ crlf)).
  { intros HB2 cs HSQ. pose proof (chunk_seq_chunked _ _ (chunk_seq_snoc _ _ _ HSQ HB2) _ _ _ chunked_end) as H.
    rewrite <- HB, app_nil_r in H. repeat rewrite <- app_assoc in H. exact H. }
  destruct (w_sent w).
  - destruct HI as (HNB & t & cs & -> & HSQ). exists t. eexists. split; [repeat rewrite <- app_assoc; reflexivity|]. apply HF; assumption.
  - destruct HI as (-> & ->). cbn [app] in *. exists (w_total w). eexists. split; [reflexivity|].
    apply (HF ltac:(intro E; rewrite E in HB; apply HN; exact HB) []). constructor.
Qed.
(** Without chunks. *)
Lemma pw_plain_inv head : forall pieces w, w_chunks w = false -> w_sent w = false -> w_wire w = [] -> w_total w = u64 (blen (concat (w_front w) ++ w_back w)) ->
  let w' := fold_left (fun w d => pw_write head d w) pieces w in
  w_chunks w' = false /\ w_sent w' = false /\ w_wire w' = [] /\
  concat (w_front w') ++ w_back w' = (concat (w_front w) ++ w_back w) ++ concat pieces /\
  w_total w' = u64 (blen (concat (w_front w') ++ w_back w')).
Proof.
  induction pieces as [|d r IH]; intros w HC HS HW HT; cbn [fold_left concat].
  - cbv zeta. rewrite app_nil_r. auto.
  - assert (HT2 : forall x, x = concat (w_front w) ++ w_back w ++ d -> u64 (w_total w + blen d) = u64 (blen x)).
    { intros x ->. rewrite HT, app_assoc, (blen_app _ d). unfold u64, unsigned. apply Zplus_mod_idemp_l. }
    assert (HG : exists w1, pw_write head d w = w1 /\ w_chunks w1 = false /\ w_sent w1 = false /\ w_wire w1 = [] /\
                 concat (w_front w1) ++ w_back w1 = (concat (w_front w) ++ w_back w) ++ d /\ w_total w1 = u64 (blen (concat (w_front w1) ++ w_back w1))).
    { unfold pw_write. rewrite HC. destruct (_ <? blen d).
      - destruct (PY_BUFFER_SIZE <? blen d); cbn; (eexists; split; [reflexivity|]); cbn; repeat split; auto.
        + rewrite concat_app. cbn. rewrite app_nil_r. reflexivity.
        + apply HT2. rewrite concat_app. cbn. rewrite app_nil_r, <- app_assoc. reflexivity.
        + rewrite <- app_assoc. reflexivity.
      - cbn; (eexists; split; [reflexivity|]); cbn; repeat split; auto. rewrite <- app_assoc. reflexivity. }
    destruct HG as (w1 & E & HC1 & HS1 & HW1 & HB1 & HT1). rewrite E.
    destruct (IH w1 HC1 HS1 HW1 HT1) as (A & B & C & D & F). repeat split; try assumption. rewrite D, HB1. repeat rewrite <- app_assoc. reflexivity.
Qed.
Lemma pw_message_plain head pieces : w_wire (pw_message head false pieces) = head (u64 (blen (concat pieces))) ++ concat pieces.
Proof.
  unfold pw_message, wr_flush, wr_send.
  destruct (pw_plain_inv head pieces (mkWr [] [] false false 0 []) eq_refl eq_refl eq_refl eq_refl) as (A & B & C & D & F).
  set (w := fold_left _ _ _) in *. rewrite A. cbn [w_wire]. rewrite B, C, F, D. reflexivity.
Qed.

(** * Responses *)
Lemma first_after : forall name extra own v, no_value name extra -> first_value name own v -> first_value name (extra ++ own) v.
Proof.
  intros name extra own v HN (a & n & b & -> & H1 & H2). exists (extra ++ a), n, b. split; [rewrite <- app_assoc; reflexivity|]. split; [exact H1|]. apply Forall_app. split; assumption.
Qed.
Lemma py_fields_ok : forall o b keep chunks extra n, 0 <= n -> Forall field_ok extra -> Forall field_ok (py_fields o b keep chunks extra n).
Proof.
  intros o b keep chunks extra n HN HE. unfold py_fields. apply Forall_app. split; [assumption|].
  constructor; [apply field_okb_ok; destruct o; reflexivity|].
  constructor; [apply field_okb_ok; destruct b; reflexivity|].
  constructor; [apply field_okb_ok; destruct keep; reflexivity|].
  constructor; [destruct chunks; [apply field_okb_ok; reflexivity|apply field_ok_length; assumption]|].
  constructor; [apply field_okb_ok; reflexivity|constructor].
Qed.
Lemma py_accept : forall o b keep chunks extra n, no_value (str "Accept") extra -> exists accept,
  first_value (str "Accept") (py_fields o b keep chunks extra n) accept /\ occurs (str "text/xml") accept /\
  (occurs (str "application/x-frpc") accept <-> b = true).
Proof.
  intros o b keep chunks extra n HX. eexists. split.
  - unfold py_fields. apply first_after; [exact HX|]. eexists [_], (str "Accept"), _. split; [reflexivity|]. split; [reflexivity|]. repeat constructor; apply other_name; reflexivity.
  - split; [exists []; destruct b; eexists; reflexivity|]. split.
    + intro X. apply contains_spec in X. destruct b; [reflexivity|discriminate].
    + intros ->. exists (str "text/xml, application/x-www-form-urlencoded, application/x-base64-frpc, "), []. reflexivity.
Qed.
Lemma py_response : forall v o b keep chunks extra cut body, py_sendable (v, o, extra, body) -> (v = false -> chunks = false) -> writes_well cut ->
  py_response_text b v o keep extra body (w_wire (pw_message (py_head o b keep chunks extra) chunks (cut body))).
Proof.
  intros v o b keep chunks extra cut body (HN & HS & HE & HX) HV HW. destruct (HW body) as [HC HST]. destruct (HST HN) as (e & first & rest & EC & HF & HZ).
  unfold own_names in HX. inversion HX as [|? ? X1 HX1]; subst. inversion HX1 as [|? ? X2 HX2]; subst. inversion HX2 as [|? ? X3 HX3]; subst. inversion HX3 as [|? ? X4 HX4]; subst. inversion HX4 as [|? ? X5 _]; subst.
  assert (FCT : forall ch t, first_value (str "Content-Type") (py_fields o b keep ch extra t) (content_type o)).
  { intros. unfold py_fields. apply first_after; [exact X1|]. eexists [], (str "Content-Type"), _. split; [reflexivity|]. split; [reflexivity|constructor]. }
  assert (FCO : forall ch t, first_value (str "Connection") (py_fields o b keep ch extra t) (if keep then str "keep-alive" else str "close")).
  { intros. unfold py_fields. apply first_after; [exact X3|]. eexists [_; _], (str "Connection"), _. split; [reflexivity|]. split; [reflexivity|]. repeat constructor; apply other_name; reflexivity. }
  unfold py_response_text. destruct chunks.
  - destruct (pieces_start e first rest HF HZ) as [P1 P2]. rewrite EC.
    destruct (pw_message_chunked (py_head o b keep true extra) _ P1 P2) as (t & w & E & HCH). rewrite <- EC, HC in HCH.
    exists (py_fields o b keep true extra 0), w. split; [|split; [|split; [|split; [|split; [|split]]]]].
    + rewrite E. unfold py_head. rewrite <- !app_assoc. reflexivity.
    + apply py_fields_ok; [lia|assumption].
    + eapply framed_chunked; [| | |exact HCH].
      * unfold no_value, py_fields. apply Forall_app. split; [assumption|]. repeat constructor; apply other_name; reflexivity.
      * unfold py_fields. apply first_after; [exact X5|]. eexists [_; _; _], (str "Transfer-Encoding"), _. split; [reflexivity|]. split; [reflexivity|]. repeat constructor; apply other_name; reflexivity.
      * reflexivity.
    + apply FCT.
    + apply FCO.
    + apply py_accept. exact X2.
    + split; [intro X; discriminate (HV X)|]. eexists. reflexivity.
  - rewrite pw_message_plain, HC. pose proof (blen_nonneg body). rewrite <- blen_zlen in HS. rewrite u64_id by (unfold in_u64; lia).
    exists (py_fields o b keep false extra (blen body)), body. split; [|split; [|split; [|split; [|split; [|split]]]]].
    + unfold py_head. rewrite <- !app_assoc. reflexivity.
    + apply py_fields_ok; [lia|assumption].
    + eapply framed_length.
      * unfold py_fields. apply first_after; [exact X4|]. eexists [_; _; _], (str "Content-Length"), _. split; [reflexivity|]. split; [reflexivity|]. repeat constructor; apply other_name; reflexivity.
      * replace (zlen body) with (blen body) by apply blen_zlen. apply dec_is_number. lia.
    + apply FCT.
    + apply FCO.
    + apply py_accept. exact X2.
    + split; [|eexists; reflexivity]. intros _. eexists. unfold py_fields. apply first_after; [exact X4|]. eexists [_; _; _], (str "Content-Length"), _. split; [reflexivity|]. split; [reflexivity|]. repeat constructor; apply other_name; reflexivity.
Qed.
