(** Lemmas about requests cut off in the middle. *)
From Coq Require Import Lia Arith.
From Verif Require Import Base Value Text M_Marshal M_BinUnmarshal M_TreeBuilder M_Base64 M_Url M_Http M_HttpIO M_HttpWriter M_Registry M_Server
  S_Http S_Registry S_Server L_Base L_Text L_UrlText L_Http L_HttpIO L_HttpIO2 L_HttpIO3 L_HttpIO4 L_HttpIO5 L_Server L_Server2.

Lemma app_prefix : forall a b c d : bytes, a ++ b = c ++ d -> blen a <= blen c -> exists e, c = a ++ e /\ b = e ++ d.
Proof.
  induction a as [|x a IH]; intros b c d E H; [exists c; auto|]. rewrite blen_cons in H. destruct c as [|y c]; [change (blen []) with 0 in H; pose proof (blen_nonneg a); lia|].
  rewrite blen_cons in H. inversion E; subst. destruct (IH b c d) as (e & -> & ->); [assumption|lia|]. exists e. auto.
Qed.

Lemma no_lf_line : forall check s, find_char 10 (pending s) = None ->
  exists s' c, read_line_opt check (-1) false s = (s', Err (ProtocolError c)).
Proof.
  intros check s H. unfold read_line_opt.
  destruct (read_line_loop_spec (S (List.length (pending s))) check (-1) false true [] s ltac:(lia)) as (p & v & E & _). rewrite E.
  unfold line_result. rewrite H. unfold too_long. cbn [Z.leb Z.compare]. replace (check && false) with false by (destruct check; reflexivity). cbn [andb]. rewrite ?andb_false_r.
  unfold err. destruct (fin s); eauto.
Qed.
Lemma no_lf_line_opt : forall check s, find_char 10 (pending s) = None ->
  exists s', (exists c, read_line_opt check (-1) true s = (s', Err (ProtocolError c))) \/ read_line_opt check (-1) true s = (s', Ok []).
Proof.
  intros check s H. unfold read_line_opt.
  destruct (read_line_loop_spec (S (List.length (pending s))) check (-1) true true [] s ltac:(lia)) as (p & v & E & _). rewrite E.
  unfold line_result. rewrite H. unfold too_long. cbn [Z.leb Z.compare]. replace (check && false) with false by (destruct check; reflexivity). cbn [andb]. rewrite ?andb_false_r.
  unfold err. exists (mkSock p v (fin s)). destruct (fin s); eauto. destruct (_ && true); eauto.
Qed.

(** A head cut off. *)
Lemma header_cut : forall fs, Forall field_ok fs -> forall p q fuel h v f, flat_map field_text fs ++ crlf = p ++ q -> q <> [] -> (List.length p < fuel)%nat ->
  exists s' c, read_header_loop fuel false h (mkSock p v f) = (s', Err (ProtocolError c)).
Proof.
  induction 1 as [|fd fs HF _ IH]; intros p q fuel h v f E HQ HL; (destruct fuel as [|fuel]; [lia|]); cbn [read_header_loop].
  - cbn [flat_map app] in E. destruct (line_cut [] p q [] ltac:(intros [])) as [(p' & -> & E2)|HN]; [exact E| |].
    + destruct p', q; try discriminate. congruence.
    + destruct (no_lf_line false (mkSock p v f) HN) as (s' & c & ->). cbn [sbind]. eauto.
  - destruct (field_line fd HF) as (H1 & H2 & H3).
    assert (E' : (fst fd ++ str ": " ++ snd fd) ++ crlf ++ (flat_map field_text fs ++ crlf) = p ++ q).
    { rewrite <- E. cbn [flat_map]. unfold field_text. rewrite <- !app_assoc. reflexivity. }
    destruct (line_cut _ p q _ H1 E') as [(p' & -> & E2)|HN].
    + destruct (read_line_crlf false (-1) false (fst fd ++ str ": " ++ snd fd) p' v f H1 H2 eq_refl) as (v' & ER).
      rewrite ER. cbn [sbind].
      destruct (fst fd ++ str ": " ++ snd fd) as [|c0 l0] eqn:EL; [congruence|]. rewrite <- EL. rewrite (get_field fd HF).
      destruct fd as [n w]. destruct HF as (HN & _). cbn [fst snd] in *. destruct n as [|n0 n]; [congruence|].
      apply (IH p' q fuel); [exact E2|assumption|]. rewrite !app_length in HL. cbn in HL. lia.
    + destruct (no_lf_line false (mkSock p v f) HN) as (s' & c & ->). cbn [sbind]. eauto.
Qed.

Section Sink.
  Context {K : Type}.
  Variable sink : K -> bytes -> K * option fail.
  (** Ready to take what is left of the body. *)
  Variable good : bytes -> K -> Prop.
  Hypothesis GOOD : forall d rem k, d <> [] -> good (d ++ rem) k -> exists k', sink k d = (k', None) /\ good rem k'.

  Lemma hand_over_good : forall pieces rem k, Forall (fun d => d <> []) pieces -> good (concat pieces ++ rem) k -> exists k', hand_over sink k pieces = (k', None) /\ good rem k'.
  Proof.
    induction pieces as [|d ps IH]; intros rem k NE H; [exists k; auto|]. cbn [concat] in H. rewrite <- app_assoc in H. inversion NE; subst.
    destruct (GOOD d _ _ ltac:(assumption) H) as (k1 & E & H1). cbn [hand_over]. rewrite E. auto.
  Qed.

  Lemma block_cut : forall fuel n (r : rd (K:=K)) q rem, good (pending (r_sock r) ++ q ++ rem) (r_sink r) -> q <> [] -> n = blen (pending (r_sock r) ++ q) ->
    (List.length (pending (r_sock r)) < fuel)%nat -> exists r' c, read_block_loop sink (-1) fuel n r = (r', Err (ProtocolError c)).
  Proof.
    induction fuel as [|fuel IH]; intros n r q rem HG HQ HN HF; [lia|]. cbn [read_block_loop]. pose proof (blen_pos _ HQ) as HQL. rewrite blen_app in HN.
    destruct (pending (r_sock r)) as [|x0 p0] eqn:EP.
    - change (blen []) with 0 in HN. unfold err. replace (n <? 0) with false by (symmetry; apply Z.ltb_ge; lia). destruct (fin (r_sock r)); eauto.
    - assert (HNE : pending (r_sock r) <> []) by congruence. rewrite <- EP in *. clear x0 p0 EP.
      set (want := if (n <? 0) || (HTTP_BUFF_LENGTH <? n) then HTTP_BUFF_LENGTH else n).
      pose proof (blen_pos _ HNE).
      assert (HW : 1 <= want) by (unfold want, HTTP_BUFF_LENGTH; destruct ((n <? 0) || (65536 <? n)); lia).
      destruct (seen_spec want (r_sock r) HNE HW) as (t & HR & HD & HLD & HC). set (d := seen want (r_sock r)) in *. clearbody d. rewrite HC. cbn [andb Z.leb Z.compare].
      rewrite HR, <- app_assoc in HG. destruct (GOOD _ _ _ HD HG) as (k1 & ES & HG1).
      unfold sink_write. cbn [r_sink r_sock r_written]. rewrite ES. cbn [sbind].
      replace (n <? 0) with false by (symmetry; apply Z.ltb_ge; lia).
      assert (HLL : blen (pending (r_sock r)) = blen d + blen t) by (rewrite HR; apply blen_app). pose proof (blen_pos _ HD). pose proof (blen_nonneg t).
      replace (n - blen d =? 0) with false by (symmetry; apply Z.eqb_neq; lia).
      apply (IH _ _ q rem); cbn [r_sock pending r_sink]; [assumption|assumption|rewrite blen_app; lia|].
      rewrite HR, app_length in HF. destruct d; [congruence|]. cbn in HF. lia.
  Qed.

  Lemma chunks_cut_good : forall body trailer wire, chunked body trailer wire -> trailer = [] -> blen body < 2 ^ 63 ->
    forall p q, wire = p ++ q -> 2 < blen q -> forall fuel h (r : rd (K:=K)), pending (r_sock r) = p -> (List.length p < fuel)%nat -> good body (r_sink r) ->
    exists r' c, read_chunks sink (-1) fuel h r = (r', Err (ProtocolError c)).
  Proof.
    assert (NOLINE : forall fuel h (r : rd (K:=K)), find_char 10 (pending (r_sock r)) = None ->
              exists r' c, read_chunks sink (-1) (S fuel) h r = (r', Err (ProtocolError c))).
    { intros fuel h r H. cbn [read_chunks]. unfold read_chunk_size.
      destruct (no_lf_line false (r_sock r) H) as (s' & c & ->). cbn [sbind with_sock]. cbn. eauto. }
    induction 1 as [size ext trailer HS HE HT|size ext data body trailer wire HS HD HE HC IH]; intros HTR HB p q EW HQ fuel h r EP HF HG.
    - subst trailer. cbn [flat_map app] in EW. destruct (size_line size 0 ext p q crlf HS HE EW) as [(p' & -> & E)|HN];
        [|destruct fuel; [lia|]; apply NOLINE; rewrite EP; exact HN].
      exfalso. apply (f_equal blen) in E. rewrite blen_app in E. change (blen crlf) with 2 in E. pose proof (blen_nonneg p'). lia.
    - destruct (size_line size _ ext p q (data ++ crlf ++ wire) HS HE EW) as [(p' & -> & E)|HN];
        [|destruct fuel; [lia|]; apply NOLINE; rewrite EP; exact HN].
      rewrite <- blen_zlen in HS. rewrite blen_app in HB. pose proof (blen_nonneg body). pose proof (blen_pos _ HD) as HDL.
      destruct fuel as [|fuel]; [lia|]. cbn [read_chunks]. destruct r as [[pp v f] k w]. cbn [r_sock pending r_sink r_written] in *. subst pp.
      destruct (read_chunk_size_at size (blen data) ext p' v f HS ltac:(lia) ltac:(lia) HE) as (v1 & E1). rewrite E1.
      cbn [with_sock sbind fst snd r_sink r_written r_sock Z.leb Z.compare andb].
      replace (blen data =? 0) with false by (symmetry; apply Z.eqb_neq; lia).
      destruct (Z.le_gt_cases (blen data) (blen p')) as [HLE|HGT].
      2:{ assert (HPQ : exists q1, data = p' ++ q1 /\ q1 <> []).
          { destruct (app_prefix p' q data (crlf ++ wire)) as (q1 & EQ & _); [symmetry; exact E|lia|].
            exists q1. split; [exact EQ|]. intro X. subst q1. rewrite app_nil_r in EQ. subst p'. lia. }
          destruct HPQ as (q1 & EQ & HQ1). unfold read_block. replace (blen data =? 0) with false by (symmetry; apply Z.eqb_neq; lia). cbn [Z.leb Z.compare andb].
          cbn [r_sock pending]. destruct (block_cut (S (List.length p')) (blen data) (mkRd (mkSock p' v1 f) k w) q1 body) as (r' & c & ->); cbn [r_sock pending r_sink].
          - rewrite app_assoc, <- EQ. exact HG.
          - assumption.
          - rewrite EQ. reflexivity.
          - lia.
          - cbn [sbind]. eauto. }
      assert (HPD : exists p2, p' = data ++ p2 /\ crlf ++ wire = p2 ++ q).
      { destruct (app_prefix data (crlf ++ wire) p' q) as (p2 & EQ & E2); [exact E|lia|]. exists p2. auto. }
      destruct HPD as (p2 & -> & E2).
      destruct (read_block_spec sink (-1) (blen data) (mkRd (mkSock (data ++ p2) v1 f) k w) data p2 eq_refl eq_refl) as (ps & EPS & NPS & HM); [left; lia|].
      rewrite <- EPS in HG. destruct (hand_over_good _ _ _ NPS HG) as (k2 & EH & HG2). cbn [r_sink] in HM. rewrite EH in HM.
      destruct HM as (v2 & w2 & EB & _). rewrite EB. cbn [sbind with_sock r_sock fin].
      destruct p2 as [|c1 p2]; [|destruct p2 as [|c2 p2]].
      + destruct (no_lf_line false (mkSock [] v2 f) eq_refl) as (s' & c & ->). cbn. eauto.
      + cbn [crlf app] in E2. inversion E2; subst c1.
        destruct (no_lf_line false (mkSock [x0d] v2 f) eq_refl) as (s' & c & ->). cbn. eauto.
      + cbn [crlf app] in E2. inversion E2; subst c1 c2.
        destruct (read_line_crlf false (-1) false [] p2 v2 f ltac:(intros []) ltac:(intros [|? ?]; discriminate) eq_refl) as (v3 & E3).
        cbn [crlf app] in E3. cbn [r_sock]. rewrite E3. cbn [fst snd with_sock sbind r_sock r_sink r_written].
        eapply IH; [assumption|lia| | |reflexivity| |exact HG2].
        * match goal with HH : wire = p2 ++ _ |- _ => exact HH end.
        * assumption.
        * rewrite !app_length in HF. cbn in HF. cbn [r_sock pending]. unfold bytes in *. lia.
  Qed.
End Sink.

Definition awaiting (u : unmarshaller) (body rem : bytes) (k : um_state u) : Prop :=
  exists pieces, um_all u (um_init u) pieces = (k, None) /\ concat pieces ++ rem = body /\ Forall (fun d => d <> []) pieces.
Lemma um_all_app : forall u a b s, um_all u s (a ++ b) = match um_all u s a with (s', None) => um_all u s' b | x => x end.
Proof. intros u. induction a as [|d a IH]; intros b s; [reflexivity|]. cbn. destruct (um_take u s d) as [s' [f|]]; [reflexivity|]. apply IH. Qed.
Lemma awaiting_takes : forall u body, (forall pieces, arrives body pieces -> exists s, um_all u (um_init u) pieces = (s, None)) ->
  forall d rem k, d <> [] -> awaiting u body (d ++ rem) k -> exists k', um_take u k d = (k', None) /\ awaiting u body rem k'.
Proof.
  intros u body HD d rem k ND (ps & E & HC & NE).
  destruct (HD (ps ++ d :: match rem with [] => [] | _ => [rem] end)) as (s & HA).
  { split; [rewrite concat_app; cbn [concat]; rewrite <- HC; f_equal; f_equal; destruct rem; cbn; rewrite ?app_nil_r; reflexivity|].
    apply Forall_app. split; [assumption|]. constructor; [assumption|]. destruct rem; repeat constructor. discriminate. }
  rewrite um_all_app, E in HA. cbn [um_all] in HA. destruct (um_take u k d) as [k1 [f|]] eqn:ET; [discriminate|]. exists k1. split; [reflexivity|].
  exists (ps ++ [d]). split; [rewrite um_all_app, E; cbn [um_all]; rewrite ET; reflexivity|]. split; [rewrite concat_app; cbn [concat]; rewrite app_nil_r, <- app_assoc; exact HC|].
  apply Forall_app. split; [assumption|repeat constructor; assumption].
Qed.
Lemma awaiting_good : forall u body ver name params, decodes u body ver name params ->
  forall d rem k, d <> [] -> awaiting u body (d ++ rem) k -> exists k', um_take u k d = (k', None) /\ awaiting u body rem k'.
Proof. intros u body ver name params HD. apply awaiting_takes. intros pieces HP. destruct (HD pieces HP) as (s & _ & H & _). eauto. Qed.
Lemma awaiting_start : forall u body, awaiting u body body (um_init u).
Proof. intros. exists []. split; [reflexivity|]. split; [reflexivity|constructor]. Qed.

Section Cut.
  Variable cfg : config.
  Variable ums : in_type -> unmarshaller.

  Lemma read_request_cut : forall st q k ver name params got sees ending,
    well_formed q -> cut_request q got -> request_type q k -> decodes (ums k) (q_body q) ver name params ->
    exists st' s' c, read_request cfg ums st (mkSock got sees ending) = (st', s', Err (ProtocolError c)).
  Proof.
    intros st q k ver name params got sees ending (HP & HF & HS) HCUT HK HD. unfold read_request.
    destruct (version_ok q) as (V1 & V2 & V3 & V4 & V5).
    set (line := str "POST" ++ [x20] ++ q_path q ++ [x20] ++ http_version q).
    assert (HL : one_line line).
    { assert (NW : forall w, word w -> one_line w) by (intros w [_ H] HI; apply (H _ HI); right; cbn; lia).
      intro H. unfold line in H. repeat (apply in_app_or in H as [H|H]); try (cbn in H; intuition discriminate).
      - apply (NW _ HP H).
      - apply (V1 H). }
    assert (EH : request_head q = line ++ crlf ++ flat_map field_text (q_fields q) ++ crlf)
      by (unfold request_head, line; rewrite <- !app_assoc; reflexivity).
    (* the first line, the header *)
    assert (FIRST : forall rest, exists sees', read_line_opt true (-1) true (mkSock (line ++ crlf ++ rest) sees ending) = (mkSock rest sees' ending, Ok line)).
    { intro rest. destruct (read_first_line true true (str "POST") (q_path q) (http_version q) rest sees ending word_post HP V1 V2 V3) as (s1 & E1).
      exists s1. unfold line. etransitivity; [|exact E1]. f_equal. f_equal. rewrite <- !app_assoc. reflexivity. }
    assert (ESP : split_by_space line 3 = [str "POST"; q_path q; http_version q]) by (apply split_three; auto using word_post).
    assert (NIL : line <> []) by (unfold line; discriminate).
    assert (HEAD : forall lost, request_head q = got ++ lost -> lost <> [] ->
      exists st' s' c, read_request cfg ums st (mkSock got sees ending) = (st', s', Err (ProtocolError c))).
    { intros lost E HLO. rewrite EH in E. unfold read_request. destruct (line_cut _ _ _ _ HL E) as [(p' & -> & E2)|HN].
      - destruct (FIRST p') as (s1 & ->). destruct line as [|l0 l1]; [congruence|]. rewrite ESP, V4. cbn [negb].
        unfold read_header. destruct (header_cut _ HF p' lost (S (List.length (pending (mkSock p' s1 ending)))) [] s1 ending E2 HLO ltac:(cbn; lia)) as (s2 & c & ->). eauto.
      - destruct (no_lf_line_opt true (mkSock got sees ending) HN) as (s' & [(c & ->)| ->]); eauto. }
    (* the body *)
    assert (BODY : forall part, got = request_head q ++ part ->
      (forall sees', exists r' c, read_content (um_take (ums k)) (-1) (map as_read (q_fields q)) true (mkRd (mkSock part sees' ending) (um_init (ums k)) 0) = (r', Err (ProtocolError c))) ->
      exists st' s' c, read_request cfg ums st (mkSock got sees ending) = (st', s', Err (ProtocolError c))).
    { intros part -> HB. unfold read_request. rewrite EH. rewrite <- !app_assoc.
      destruct (FIRST (flat_map field_text (q_fields q) ++ crlf ++ part)) as (s1 & ->). destruct line as [|l0 l1]; [congruence|]. rewrite ESP, V4. cbn [negb].
      destruct (read_head (q_fields q) part s1 ending HF) as (s2 & ->). change (bytes_eqb (str "POST") (str "POST")) with true. cbn [negb].
      destruct (choose_out cfg _) as [o chunks]. rewrite (choose_in_spec _ _ HK). destruct (HB s2) as (r' & c & ->). eauto. }
    destruct HCUT as [got lost E HLO|v part lost HV HDV HB HLO|v wire part lost HV HT HSN HC HB HLO].
    - exact (HEAD lost E HLO).
    - apply (BODY part eq_refl). intro s2. unfold read_content. rewrite (get_read _ _ _ HV), (read_dec_long_number _ _ HDV) by lia.
      rewrite <- blen_zlen in *. pose proof (blen_nonneg (q_body q)). replace (blen (q_body q) <? 0) with false by (symmetry; apply Z.ltb_ge; lia).
      cbn [Z.leb Z.compare andb]. unfold read_block.
      assert (0 < blen (q_body q)) by (rewrite HB, blen_app; pose proof (blen_pos _ HLO); pose proof (blen_nonneg part); lia).
      replace (blen (q_body q) =? 0) with false by (symmetry; apply Z.eqb_neq; lia). cbn [Z.leb Z.compare andb r_sock pending].
      destruct (block_cut (um_take (ums k)) (awaiting (ums k) (q_body q)) (awaiting_good _ _ _ _ _ HD) (S (List.length part)) (blen (q_body q))
                 (mkRd (mkSock part s2 ending) (um_init (ums k)) 0) lost []) as (r' & c & ->); cbn [r_sock pending r_sink].
      + rewrite app_nil_r, <- HB. apply awaiting_start.
      + assumption.
      + rewrite HB. reflexivity.
      + lia.
      + cbn [sbind]. eauto.
    - apply (BODY part eq_refl). intro s2. unfold read_content. rewrite (get_read_none _ _ HV), (get_read _ _ _ HT).
      replace (bytes_eqb (map to_upper v) (str "CHUNKED")) with true by (symmetry; apply bytes_eqb_spec; rewrite (upper_name _ _ HSN); reflexivity).
      unfold read_chunked. rewrite <- blen_zlen in *. cbn [r_sock pending].
      eapply (chunks_cut_good (um_take (ums k)) (awaiting (ums k) (q_body q)) (awaiting_good _ _ _ _ _ HD) _ _ _ HC eq_refl HS); [exact HB|assumption|reflexivity|lia|].
      apply awaiting_start.
  Qed.
End Cut.

Section Serving.
  Context {W : Type}.
  Variable message : exn -> bytes.
  Variable cfg : config.
  Variable ums : in_type -> unmarshaller.
  Variable mars : out_type -> version -> marshaller.
  Variable reason : Z -> bytes.
  Variable cut : bytes -> list bytes.
  Variable added : W -> header.
  Variable g : registry (W:=W).
  Hypothesis CUT : writes_well cut.

  Notation serve_one := (serve_one message cfg ums mars reason cut added g).
  Notation serve_loop := (serve_loop message cfg ums mars reason cut added g).

  Lemma serve_loop_cut : forall n w qs w' outs left, connection message cfg ums mars added g n w qs w' outs left ->
    f_max cfg < 2 ^ 32 -> n = 0 \/ 0 <= n < f_max cfg -> Forall well_formed qs -> Forall sendable outs ->
    forall texts q k ver name params got, Forall2 request_text qs texts ->
    well_formed q -> cut_request q got -> request_type q k -> decodes (ums k) (q_body q) ver name params ->
    forall fuel st sees ending log out, (List.length (concat texts ++ got) < fuel)%nat ->
    exists c x replies, serve_loop fuel n (mkConn st (mkSock (concat texts ++ got) sees ending) w log out) = (c, x) /\ x <> UB /\
      c_world c = w' /\ c_wire c = out ++ concat replies /\ Forall2 (answer_text cfg) outs replies.
  Proof.
    intros n w qs w' outs left HC HM. induction HC as [n w|n w q rest w' o body HA HG|n w q rest w' o body w2 outs left HA HG HC IH];
      intros HN HQ HS texts q0 k ver name params got HT HQ0 HCUT HK HD fuel st sees ending log out HF.
    - inversion HT; subst. destruct fuel as [|fuel]; [lia|]. cbn [M_Server.serve_loop concat app].
      unfold M_Server.serve_one. cbn [c_srv c_sock c_world c_log c_wire].
      destruct (read_request_cut cfg ums st q0 k ver name params got sees ending HQ0 HCUT HK HD) as (st' & s' & c & ->).
      destruct (c =? HTTP_NO_REQUEST_RECEIVED); do 2 eexists; exists []; (split; [reflexivity|]); (split; [discriminate|]); cbn; rewrite app_nil_r; auto.
    - inversion HT as [|? t ? texts' (wire & HFR & ET) HT']; subst. inversion HQ; subst. inversion HS; subst.
      destruct fuel as [|fuel]; [lia|]. cbn [M_Server.serve_loop concat]. rewrite <- !app_assoc.
      destruct (serve_one_good message cfg ums mars reason cut added g CUT st q w w' o body wire (concat texts' ++ got) sees ending log out)
        as (st' & sees' & log' & text & E & HR & HCL & _); try assumption.
      rewrite E. cbn [c_srv]. unfold goes_on in HG.
      assert (EX : s_close st' || negb (f_keep cfg) || (f_max cfg <=? u32 (n + 1)) = true).
      { destruct (s_close st'); [reflexivity|]. destruct (f_keep cfg); [|reflexivity]. cbn [orb negb].
        assert (HKO : keeps_open q) by (apply HCL; reflexivity). assert (f_max cfg <= n + 1).
        { destruct (Z.lt_ge_cases (n + 1) (f_max cfg)); [|lia]. exfalso. apply HG. auto. }
        rewrite u32_id by (unfold in_u32; lia). apply Z.leb_le. assumption. }
      rewrite EX. do 2 eexists. exists [text]. split; [reflexivity|]. split; [discriminate|].
      cbn [c_world c_wire c_sock pending concat]. rewrite app_nil_r. repeat split; repeat constructor. exact HR.
    - inversion HT as [|? t ? texts' (wire & HFR & ET) HT']; subst. inversion HQ; subst. inversion HS; subst.
      destruct fuel as [|fuel]; [lia|]. cbn [M_Server.serve_loop concat]. rewrite <- !app_assoc.
      destruct (serve_one_good message cfg ums mars reason cut added g CUT st q w w' o body wire (concat texts' ++ got) sees ending log out)
        as (st' & sees' & log' & text & E & HR & HCL & _); try assumption.
      rewrite E. cbn [c_srv]. destruct HG as (HG1 & HG2 & HG3). apply HCL in HG2. rewrite HG2, HG1. cbn [orb negb].
      rewrite u32_id by (unfold in_u32; lia). replace (f_max cfg <=? n + 1) with false by (symmetry; apply Z.leb_gt; lia).
      destruct (IH ltac:(lia) ltac:(assumption) ltac:(assumption) texts' q0 k ver name params got HT' HQ0 HCUT HK HD fuel st' sees' ending log' (out ++ text))
        as (c & x & replies & E2 & E3 & E4 & E5 & E6).
      + rewrite concat_cons, !app_length in HF. rewrite app_length. unfold request_head in HF. rewrite !app_length in HF. cbn in HF. unfold bytes in *. lia.
      + exists c, x, (text :: replies). split; [exact E2|]. split; [exact E3|]. split; [exact E4|]. split; [rewrite E5, <- app_assoc; reflexivity|]. constructor; assumption.
  Qed.
End Serving.
