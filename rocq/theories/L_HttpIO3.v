(** Header fields, blocks and chunked bodies. *)
From Coq Require Import Lia.
From Verif Require Import Base Text M_Base64 M_Iso M_Url M_Http M_HttpIO S_Http L_Base L_Url L_HttpIO L_HttpIO2.

Definition fail_res {A} (f : fail) : res A := match f with Exn e => Err e | Undef => UB end.

(** ** Header fields *)
Lemma space_spec : forall c, ascii_space c <-> is_space c = true.
Proof.
  intro c. unfold ascii_space, is_space.
  assert (EQ : c = x20 <-> b2z c = 32) by (split; intro H; [subst; reflexivity|apply b2z_inj; assumption]).
  rewrite EQ. destruct (Z.leb_spec 9 (b2z c)), (Z.leb_spec (b2z c) 13), (Z.eqb_spec (b2z c) 32); cbn; split; intro HH;
    try reflexivity; try discriminate; lia.
Qed.
Lemma not_space_spec : forall c, ~ ascii_space c -> is_space c = false.
Proof. intros c H. destruct (is_space c) eqn:E; [|reflexivity]. apply space_spec in E. contradiction. Qed.

Lemma get_field : forall f, field_ok f -> get_header_value (fst f ++ str ": " ++ snd f) = Some f.
Proof.
  intros [n w] (HN & HNC & HL & HB & HE). cbn [fst snd] in *. unfold get_header_value.
  destruct n as [|c n]; [congruence|]. cbn [app].
  rewrite (not_space_spec c) by (apply HNC; left; reflexivity).
  replace (c :: n ++ str ": " ++ w) with ((c :: n) ++ x3a :: (x20 :: w)) by reflexivity.
  change x3a with (z2b 58). rewrite break_at_app; [|intros y HY E; destruct (HNC y HY) as [H1 _]; apply H1; apply b2z_inj; assumption|reflexivity].
  change (x20 :: w) with ([x20] ++ w). rewrite skip_app by reflexivity.
  rewrite skip_none by (intros y r E; apply not_space_spec; apply (HB y r E)).
  rewrite strip_end_id by (intros y r E; apply not_space_spec; apply (HE y r E)). reflexivity.
Qed.

Definition as_read (f : bytes * bytes) : bytes * bytes := (polish_name (fst f), snd f).

Lemma field_line : forall f, field_ok f -> one_line (fst f ++ str ": " ++ snd f) /\ (forall r, fst f ++ str ": " ++ snd f <> r ++ [x0d])
  /\ fst f ++ str ": " ++ snd f <> [].
Proof.
  intros [n w] (HN & HNC & HL & HB & HE). cbn [fst snd] in *. split; [|split].
  - intro H. apply in_app_or in H as [H|H]; [destruct (HNC _ H) as [_ HS]; apply HS; right; cbn; lia|].
    apply in_app_or in H as [H|H]; [cbn in H; intuition discriminate|contradiction].
  - intros r E. destruct w as [|y w] using rev_ind.
    + rewrite app_nil_r in E. change (str ": ") with ([x3a] ++ [x20]) in E. rewrite app_assoc in E.
      apply app_inj_tail in E as [_ E]. discriminate.
    + rewrite !app_assoc in E. apply app_inj_tail in E as [_ E]. apply (HE y w eq_refl). subst y. right. cbn. lia.
  - destruct n; [congruence|discriminate].
Qed.

Lemma read_fields : forall fs, Forall field_ok fs -> forall fuel opt h rest v f,
  (List.length (flat_map field_text fs) + 1 < fuel)%nat ->
  exists v', read_header_loop fuel opt h (mkSock (flat_map field_text fs ++ crlf ++ rest) v f)
             = (mkSock rest v' f, Ok (h ++ map as_read fs)).
Proof.
  induction 1 as [|fd fs HF _ IH]; intros fuel opt h rest v f HFU.
  - destruct fuel as [|fuel]; [cbn in HFU; lia|]. cbn [read_header_loop flat_map].
    destruct (read_line_crlf false (-1) opt [] rest v f ltac:(intros []) ltac:(intros [|? ?]; discriminate) eq_refl) as (v' & E).
    change ([] ++ crlf ++ rest) with ([] ++ (crlf ++ rest)) in *. rewrite E. cbn [sbind]. exists v'. cbn. rewrite app_nil_r. reflexivity.
  - destruct fuel as [|fuel]; [lia|]. cbn [flat_map read_header_loop].
    destruct (field_line fd HF) as (H1 & H2 & H3).
    destruct (read_line_crlf false (-1) opt (fst fd ++ str ": " ++ snd fd) (flat_map field_text fs ++ crlf ++ rest) v f H1 H2 eq_refl) as (v1 & E1).
    replace ((field_text fd ++ flat_map field_text fs) ++ crlf ++ rest)
      with ((fst fd ++ str ": " ++ snd fd) ++ crlf ++ flat_map field_text fs ++ crlf ++ rest)
      by (unfold field_text; repeat rewrite <- app_assoc; reflexivity).
    rewrite E1. cbn [sbind].
    destruct (fst fd ++ str ": " ++ snd fd) as [|c0 l0] eqn:EL; [congruence|]. rewrite <- EL. rewrite (get_field fd HF).
    destruct fd as [n w]. cbn [fst snd] in *. destruct n as [|c1 n]; [destruct HF as [HF _]; cbn in HF; congruence|].
    destruct (IH fuel false (header_add (c1 :: n) w h) rest v1 f) as (v2 & E2).
    { cbn [flat_map] in HFU. rewrite app_length in HFU.
      assert (1 <= List.length (field_text (c1 :: n, w)))%nat by (cbn; lia). unfold bytes in *. lia. }
    exists v2. rewrite E2. f_equal. f_equal. unfold header_add. rewrite <- app_assoc. reflexivity.
Qed.

Lemma read_header_fields : forall fs opt h rest v f, Forall field_ok fs ->
  exists v', read_header opt h (mkSock (flat_map field_text fs ++ crlf ++ rest) v f) = (mkSock rest v' f, Ok (h ++ map as_read fs)).
Proof.
  intros. unfold read_header. cbn [pending]. apply read_fields; [assumption|]. rewrite !app_length. cbn [List.length crlf]. lia.
Qed.

(** ** Blocks *)
Lemma hand_over_app : forall K F (take : K -> bytes -> K * option F) a b k,
  hand_over take k (a ++ b) = match hand_over take k a with (k', None) => hand_over take k' b | x => x end.
Proof.
  induction a as [|d a IH]; intros b k; [reflexivity|]. cbn. destruct (take k d) as [k' [f|]]; [reflexivity|]. apply IH.
Qed.

Section Sink.
  Context {K : Type}.
  Variable sink : K -> bytes -> K * option fail.
  Variable limit : Z.

  Definition room (w n : Z) : Prop := limit < 0 \/ (0 <= w /\ w + n <= limit /\ limit < 2 ^ 31).

  Lemma read_block_loop_spec : forall fuel n (r : rd (K:=K)) body rest,
    pending (r_sock r) = body ++ rest -> blen body = n -> 1 <= n -> (List.length body < fuel)%nat -> room (r_written r) n ->
    exists pieces, concat pieces = body /\ Forall (fun d => d <> []) pieces /\
      match hand_over sink (r_sink r) pieces with
      | (k, None) => exists v, read_block_loop sink limit fuel n r
                               = (mkRd (mkSock rest v (fin (r_sock r))) k (u32 (r_written r + n)), Ok tt)
      | (k, Some f) => exists s w, read_block_loop sink limit fuel n r = (mkRd s k w, fail_res f)
      end.
  Proof.
    induction fuel as [|fuel IH]; intros n r body rest HP HL HN HF HR; [lia|]. cbn [read_block_loop].
    assert (HNE : pending (r_sock r) <> []) by (rewrite HP; destruct body; [cbn in HL; lia|discriminate]).
    destruct (pending (r_sock r)) as [|x0 p0] eqn:EP; [congruence|]. rewrite <- EP in *. clear x0 p0 EP.
    replace (n <? 0) with false by (symmetry; apply Z.ltb_ge; lia). cbn [orb].
    set (want := if HTTP_BUFF_LENGTH <? n then HTTP_BUFF_LENGTH else n).
    assert (HW : 1 <= want <= n) by (unfold want, HTTP_BUFF_LENGTH in *; destruct (Z.ltb_spec 65536 n); lia).
    destruct (seen_spec want (r_sock r) HNE ltac:(lia)) as (q & HQ & HD & HDL & HC).
    set (d := seen want (r_sock r)) in *. clearbody d. rewrite HC.
    assert (EB : exists body', body = d ++ body').
    { exists (zdrop (blen d) body). rewrite <- (ztake_zdrop _ (blen d) body) at 1. f_equal.
      assert (E : ztake (blen d) (body ++ rest) = ztake (blen d) (d ++ q)) by congruence.
      rewrite ztake_app_le in E by (unfold blen, zlen, bytes in *; lia). rewrite (ztake_app' _ (blen d) d) in E by apply blen_zlen.
      assumption. }
    destruct EB as (body' & ->). rewrite HP, <- app_assoc in HQ. apply app_inv_head in HQ. subst q.
    rewrite blen_app in HL. pose proof (blen_nonneg body'). pose proof (blen_pos d HD).
    replace ((0 <=? limit) && (limit <? r_written r)) with false.
    2:{ symmetry. destruct HR as [HR|HR]; [replace (0 <=? limit) with false by (symmetry; apply Z.leb_gt; lia); reflexivity|].
        replace (limit <? r_written r) with false by (symmetry; apply Z.ltb_ge; lia). apply andb_false_r. }
    unfold sink_write. cbn [r_sock r_sink r_written].
    destruct (sink (r_sink r) d) as [k [fl|]] eqn:ES.
    - (* the sink fails *)
      destruct body' as [|c body'].
      + exists [d]. cbn. rewrite app_nil_r, ES. repeat split; auto. destruct fl; cbn; eauto.
      + exists [d; c :: body']. cbn. rewrite app_nil_r, ES. repeat split; auto.
        * repeat constructor; [assumption|discriminate].
        * destruct fl; cbn; eauto.
    - cbn [sbind]. destruct (Z.eqb_spec (n - blen d) 0) as [E0|E0].
      + assert (body' = []) by (apply zlen_0_nil; rewrite <- blen_zlen; lia). subst body'. exists [d]. cbn.
        rewrite app_nil_r, ES. repeat split; auto. exists (tl (sees (r_sock r))).
        replace (blen d) with n by lia. reflexivity.
      + destruct (IH (n - blen d) (mkRd (mkSock (body' ++ rest) (tl (sees (r_sock r))) (fin (r_sock r))) k (u32 (r_written r + blen d)))
                   body' rest) as (ps & EC & HPS & HM).
        * reflexivity.
        * lia.
        * lia.
        * rewrite app_length in HF. destruct d; [congruence|]. cbn in HF. lia.
        * cbn [r_written]. destruct HR as [HR|HR]; [left; lia|]. right. rewrite u32_id by (unfold in_u32; lia). lia.
        * exists (d :: ps). cbn. rewrite ES. split; [congruence|]. split; [constructor; assumption|].
          cbn [r_sink r_sock fin r_written] in HM. destruct (hand_over sink k ps) as [k' [fl|]]; [exact HM|].
          destruct HM as (v & HM). exists v. rewrite HM.
          replace (u32 (u32 (r_written r + blen d) + (n - blen d))) with (u32 (r_written r + n)); [reflexivity|].
          unfold u32, unsigned. rewrite Zplus_mod_idemp_l. f_equal. lia.
  Qed.

  Lemma read_block_spec : forall n (r : rd (K:=K)) body rest,
    pending (r_sock r) = body ++ rest -> blen body = n -> room (r_written r) n ->
    exists pieces, concat pieces = body /\ Forall (fun d => d <> []) pieces /\
      match hand_over sink (r_sink r) pieces with
      | (k, None) => exists v w, read_block sink limit n r = (mkRd (mkSock rest v (fin (r_sock r))) k w, Ok tt)
                                 /\ (n = 0 \/ w = u32 (r_written r + n)) /\ (n = 0 -> w = r_written r)
      | (k, Some f) => exists s w, read_block sink limit n r = (mkRd s k w, fail_res f)
      end.
  Proof.
    intros n r body rest HP HL HR. unfold read_block. pose proof (blen_nonneg body).
    destruct (Z.eqb_spec n 0) as [E|E].
    - assert (body = []) by (apply zlen_0_nil; rewrite <- blen_zlen; lia). subst body. exists []. cbn.
      repeat split; auto. exists (sees (r_sock r)), (r_written r). split; [|split; auto].
      destruct r as [[p v f] k w]. cbn in *. subst. reflexivity.
    - replace ((0 <=? limit) && (limit <? n)) with false.
      2:{ symmetry. destruct HR as [HR|HR]; [replace (0 <=? limit) with false by (symmetry; apply Z.leb_gt; lia); reflexivity|].
          replace (limit <? n) with false by (symmetry; apply Z.ltb_ge; lia). apply andb_false_r. }
      destruct (read_block_loop_spec (S (List.length (pending (r_sock r)))) n r body rest HP HL ltac:(lia)) as (ps & EC & HPS & HM);
        [rewrite HP, app_length; lia|assumption|].
      exists ps. repeat split; auto. destruct (hand_over sink (r_sink r) ps) as [k [fl|]]; [exact HM|].
      destruct HM as (v & HM). exists v, (u32 (r_written r + n)). split; [exact HM|]. split; [auto|lia].
  Qed.

  (** ** Chunked bodies *)
  Lemma chunks_spec : forall body trailer wire, chunked body trailer wire -> blen body < 2 ^ 63 ->
    forall fuel (r : rd (K:=K)) h rest, pending (r_sock r) = wire ++ rest -> (List.length wire < fuel)%nat ->
    room (r_written r) (blen body) ->
    exists pieces, concat pieces = body /\ Forall (fun d => d <> []) pieces /\
      match hand_over sink (r_sink r) pieces with
      | (k, None) => exists v w, read_chunks sink limit fuel h r
                               = (mkRd (mkSock rest v (fin (r_sock r))) k w, Ok (h ++ map as_read trailer))
      | (k, Some f) => exists s w, read_chunks sink limit fuel h r = (mkRd s k w, fail_res f)
      end.
  Proof.
    induction 1 as [size ext trailer HS HE HT|size ext data body trailer wire HS HD HE HC IH]; intros HB fuel r h rest HP HF HR.
    - destruct fuel as [|fuel]; [lia|]. cbn [read_chunks]. exists []. cbn [concat hand_over]. repeat split; auto.
      destruct r as [[p v f] k w]. cbn [r_sock pending r_sink fin r_written] in *. subst p.
      destruct (read_chunk_size_at size 0 ext (flat_map field_text trailer ++ crlf ++ rest) v f HS ltac:(lia) ltac:(lia) HE) as (v1 & E1).
      replace ((size ++ ext ++ crlf ++ flat_map field_text trailer ++ crlf) ++ rest)
        with (size ++ ext ++ crlf ++ flat_map field_text trailer ++ crlf ++ rest) by (repeat rewrite <- app_assoc; reflexivity).
      rewrite E1. cbn [with_sock sbind fst snd r_sink r_written Z.eqb r_sock].
      destruct (read_header_fields trailer true h rest v1 f HT) as (v2 & E2). rewrite E2. exists v2, w. reflexivity.
    - destruct fuel as [|fuel]; [lia|]. cbn [read_chunks].
      rewrite blen_app in HB, HR. pose proof (blen_nonneg body). pose proof (blen_pos data HD).
      destruct r as [[p v f] k w]. cbn [r_sock pending r_sink fin r_written] in *. subst p.
      destruct (read_chunk_size_at size (zlen data) ext (data ++ crlf ++ wire ++ rest) v f HS
                  ltac:(rewrite <- blen_zlen; lia) ltac:(apply zlen_nonneg) HE) as (v1 & E1).
      replace ((size ++ ext ++ crlf ++ data ++ crlf ++ wire) ++ rest)
        with (size ++ ext ++ crlf ++ data ++ crlf ++ wire ++ rest) by (repeat rewrite <- app_assoc; reflexivity).
      rewrite E1. cbn [with_sock sbind fst snd r_sink r_written r_sock]. rewrite <- (blen_zlen data).
      replace (blen data =? 0) with false by (symmetry; apply Z.eqb_neq; lia).
      replace ((0 <=? limit) && (2 ^ 63 <=? w + blen data)) with false.
      2:{ symmetry. destruct HR as [HR|HR]; [replace (0 <=? limit) with false by (symmetry; apply Z.leb_gt; lia); reflexivity|].
          replace (2 ^ 63 <=? w + blen data) with false by (symmetry; apply Z.leb_gt; lia). apply andb_false_r. }
      replace ((0 <=? limit) && (limit <? w + blen data)) with false.
      2:{ symmetry. destruct HR as [HR|HR]; [replace (0 <=? limit) with false by (symmetry; apply Z.leb_gt; lia); reflexivity|].
          replace (limit <? w + blen data) with false by (symmetry; apply Z.ltb_ge; lia). apply andb_false_r. }
      destruct (read_block_spec (blen data) (mkRd (mkSock (data ++ crlf ++ wire ++ rest) v1 f) k w) data (crlf ++ wire ++ rest)
                  eq_refl eq_refl) as (ps & EC & HPS & HM).
      { cbn [r_written]. destruct HR as [HR|HR]; [left; lia|right; lia]. }
      cbn [r_sink r_sock fin r_written] in HM. destruct (hand_over sink k ps) as [k1 [fl|]] eqn:EH.
      + destruct HM as (s1 & w1 & HM). exists (ps ++ match body with [] => [] | _ => [body] end).
        rewrite concat_app, EC. split; [destruct body; cbn; rewrite ?app_nil_r; reflexivity|].
        split; [apply Forall_app; split; [assumption|destruct body; repeat constructor; discriminate]|].
        rewrite hand_over_app, EH. rewrite HM. exists s1, w1. destruct fl; reflexivity.
      + destruct HM as (v2 & w1 & HM & HW & _). rewrite HM. cbn [sbind r_sock with_sock].
        destruct (read_line_crlf false (-1) false [] (wire ++ rest) v2 f ltac:(intros []) ltac:(intros [|? ?]; discriminate) eq_refl) as (v3 & E3).
        change ([] ++ crlf ++ wire ++ rest) with (crlf ++ wire ++ rest) in E3. rewrite E3.
        cbn [fst snd sbind r_sink r_written r_sock].
        destruct (IH ltac:(lia) fuel (mkRd (mkSock (wire ++ rest) v3 f) k1 w1) h rest eq_refl) as (qs & EQ & HQS & HQ).
        * rewrite !app_length in HF. destruct size as [|c0 size]; [inversion HS; destruct s; discriminate|]. cbn in HF. lia.
        * cbn [r_written]. destruct HR as [HR|HR]; [left; lia|]. right. destruct HW as [HW|HW]; [lia|].
          rewrite u32_id in HW by (unfold in_u32; lia). lia.
        * cbn [r_sink r_sock fin] in HQ. exists (ps ++ qs). rewrite concat_app, EC, EQ. split; [reflexivity|].
          split; [apply Forall_app; auto|]. rewrite hand_over_app, EH. exact HQ.
  Qed.
End Sink.
