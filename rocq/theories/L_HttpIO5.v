(** More lemmas about reading from a socket: end of connection and truncated bodies. *)
From Coq Require Import Lia.
From Verif Require Import Base Text M_Base64 M_Iso M_Url M_Http M_HttpIO S_Http L_Base L_HttpIO L_HttpIO2 L_HttpIO3 L_HttpIO4 L_Http.

Lemma header_of : forall fs, map as_read fs = [] ++ map (fun f => (polish_name (fst f), snd f)) fs.
Proof. reflexivity. Qed.
Lemma get_read : forall name fs v, first_value name fs v -> header_get name 0 (map as_read fs) = Some v.
Proof. intros. rewrite header_of. apply get_first; [assumption|constructor|constructor]. Qed.
Lemma get_read_none : forall name fs, no_value name fs -> header_get name 0 (map as_read fs) = None.
Proof. intros. rewrite header_of. apply get_none; [assumption|constructor|constructor]. Qed.
Lemma read_head : forall fs rest v f, Forall field_ok fs ->
  exists v', read_header false [] (mkSock (flat_map field_text fs ++ crlf ++ rest) v f) = (mkSock rest v' f, Ok (map as_read fs)).
Proof. intros. apply (read_header_fields fs false [] rest v f H). Qed.

Lemma upper_name : forall a b, same_name a b -> map to_upper a = map to_upper b.
Proof.
  unfold same_name. change ascii_lower with to_lower. induction a as [|x a IH]; intros [|y b] H; cbn [map] in *; try discriminate; [reflexivity|].
  inversion H as [[H1 H2]]. rewrite (IH b H2). f_equal.
  destruct (byte_case x) as (_ & _ & _ & _ & HX & _), (byte_case y) as (_ & _ & _ & _ & HY & _). congruence.
Qed.

(** Without a line feed there is no line. *)
Lemma no_lf_no_line : forall check limit s, find_char 10 (pending s) = None ->
  forall l, snd (read_line_opt check limit false s) <> Ok l.
Proof.
  intros check limit s H l. unfold read_line_opt.
  destruct (read_line_loop_spec (S (List.length (pending s))) check limit false true [] s ltac:(lia)) as (p & v & E & _). rewrite E. cbn [snd].
  unfold line_result. rewrite H. destruct ((0 <? blen (pending s)) && too_long check limit (blen [] + blen (pending s))); [discriminate|].
  destruct (fin s); try discriminate. rewrite andb_false_r. discriminate.
Qed.

(** A line cut off. *)
Lemma line_cut : forall l p q t : bytes, one_line l -> l ++ crlf ++ t = p ++ q ->
  (exists p', p = l ++ crlf ++ p' /\ t = p' ++ q) \/ find_char 10 p = None.
Proof.
  intros l p q t HL E.
  assert (HLN : find_char 10 (l ++ [x0d]) = None) by (rewrite find_char_app_none by (apply not_lf; assumption); reflexivity).
  destruct (Nat.le_gt_cases (List.length p) (List.length (l ++ [x0d]))) as [HLE|HGT].
  - right. replace (l ++ crlf ++ t) with ((l ++ [x0d]) ++ x0a :: t) in E by (repeat rewrite <- app_assoc; reflexivity).
    rewrite find_char_none_in in HLN |- *. intros y HY. apply HLN. apply (f_equal (firstn (List.length p))) in E.
    rewrite (firstn_app (List.length p) p), firstn_all, Nat.sub_diag in E. cbn [firstn] in E. rewrite app_nil_r, firstn_app in E.
    replace (Datatypes.length p - Datatypes.length (l ++ [x0d]))%nat with O in E by (unfold bytes in *; lia). cbn [firstn] in E.
    rewrite app_nil_r in E. rewrite <- E in HY. rewrite <- (firstn_skipn (List.length p) (l ++ [x0d])). apply in_or_app. auto.
  - left. replace (l ++ crlf ++ t) with ((l ++ crlf) ++ t) in E by (repeat rewrite <- app_assoc; reflexivity).
    assert (HL2 : (List.length (l ++ crlf) <= List.length p)%nat).
    { rewrite !app_length in HGT |- *. cbn in HGT |- *. lia. }
    exists (skipn (List.length (l ++ crlf)) p).
    assert (E1 : firstn (List.length (l ++ crlf)) p = l ++ crlf).
    { apply (f_equal (firstn (List.length (l ++ crlf)))) in E. rewrite firstn_app, firstn_all, Nat.sub_diag in E. cbn [firstn] in E.
      rewrite app_nil_r, firstn_app in E. replace (Datatypes.length (l ++ crlf) - Datatypes.length p)%nat with O in E by (unfold bytes in *; lia).
      cbn [firstn] in E. rewrite app_nil_r in E. symmetry. exact E. }
    assert (E2 : p = l ++ crlf ++ skipn (List.length (l ++ crlf)) p).
    { rewrite <- (firstn_skipn (List.length (l ++ crlf)) p) at 1. rewrite E1. repeat rewrite <- app_assoc. reflexivity. }
    split; [exact E2|]. rewrite E2 in E.
    replace ((l ++ crlf ++ skipn (Datatypes.length (l ++ crlf)) p) ++ q)
      with ((l ++ crlf) ++ (skipn (Datatypes.length (l ++ crlf)) p ++ q)) in E by (repeat rewrite <- app_assoc; reflexivity).
    apply app_inv_head in E. exact E.
Qed.
Lemma size_line : forall (size : bytes) n ext p q t, hex_number size n -> chunk_ext ext -> size ++ ext ++ crlf ++ t = p ++ q ->
  (exists p', p = size ++ ext ++ crlf ++ p' /\ t = p' ++ q) \/ find_char 10 p = None.
Proof.
  intros size n ext p q t HS (HE & _) E. destruct (hex_not_lf _ _ HS) as (HL & _).
  assert (H1 : one_line (size ++ ext)) by (intro H; apply in_app_or in H as [H|H]; auto).
  rewrite app_assoc in E. destruct (line_cut _ _ _ _ H1 E) as [(p' & -> & E2)|H]; [left|auto]. exists p'. rewrite <- app_assoc. auto.
Qed.

Section Sink.
  Context {K : Type}.
  Variable sink : K -> bytes -> K * option fail.
  Variable limit : Z.

  Lemma sink_write_sock : forall d (r r' : rd (K:=K)) x, sink_write sink d r = (r', x) -> r_sock r' = r_sock r.
  Proof. intros d r r' x H. unfold sink_write in H. destruct (sink (r_sink r) d) as [k [[e|]|]]; inversion H; reflexivity. Qed.

  (** A block longer than the data. *)
  Lemma block_short : forall fuel n (r : rd (K:=K)), 0 <= n -> blen (pending (r_sock r)) < n -> (List.length (pending (r_sock r)) < fuel)%nat ->
    snd (read_block_loop sink limit fuel n r) <> Ok tt.
  Proof.
    induction fuel as [|fuel IH]; intros n r HN HL HF; [lia|]. cbn [read_block_loop].
    destruct (pending (r_sock r)) as [|x0 p0] eqn:EP.
    - cbn [snd]. destruct (fin (r_sock r)); try discriminate. replace (n <? 0) with false by (symmetry; apply Z.ltb_ge; lia). discriminate.
    - assert (HNE : pending (r_sock r) <> []) by congruence. rewrite <- EP in *. clear x0 p0 EP.
      set (want := if (n <? 0) || (HTTP_BUFF_LENGTH <? n) then HTTP_BUFF_LENGTH else n).
      pose proof (blen_pos _ HNE).
      assert (HW : 1 <= want) by (unfold want, HTTP_BUFF_LENGTH; destruct ((n <? 0) || (65536 <? n)); lia).
      destruct (seen_spec want (r_sock r) HNE HW) as (q & HR & HD & HLD & HC). set (d := seen want (r_sock r)) in *. clearbody d. rewrite HC.
      destruct ((0 <=? limit) && (limit <? r_written r)); [discriminate|].
      destruct (sink_write sink d _) as [r2 x] eqn:ES. destruct x as [[]|e|]; cbn [sbind]; try discriminate.
      pose proof (sink_write_sock _ _ _ _ ES) as HS. cbn [r_sock] in HS.
      replace (n <? 0) with false by (symmetry; apply Z.ltb_ge; lia).
      assert (HLL : blen (pending (r_sock r)) = blen d + blen q) by (rewrite HR; apply blen_app). pose proof (blen_pos _ HD). pose proof (blen_nonneg q).
      replace (n - blen d =? 0) with false by (symmetry; apply Z.eqb_neq; lia).
      apply IH; [lia|rewrite HS; cbn [pending]; lia|]. rewrite HS. cbn [pending]. rewrite HR, app_length in HF. destruct d; [congruence|]. cbn in HF. lia.
  Qed.
  Lemma read_block_short : forall n (r : rd (K:=K)), 0 <= n -> blen (pending (r_sock r)) < n -> snd (read_block sink limit n r) <> Ok tt.
  Proof.
    intros n r HN HL. unfold read_block. pose proof (blen_nonneg (pending (r_sock r))).
    replace (n =? 0) with false by (symmetry; apply Z.eqb_neq; lia). destruct ((0 <=? limit) && (limit <? n)); [discriminate|].
    apply block_short; auto.
  Qed.

  (** Until the end of the connection. *)
  Lemma until_close : forall fuel (r : rd (K:=K)), limit < 0 -> fin (r_sock r) = Closed -> (List.length (pending (r_sock r)) < fuel)%nat ->
    exists pieces, arrives (pending (r_sock r)) pieces /\
      match hand_over sink (r_sink r) pieces with
      | (k, None) => exists v w, read_block_loop sink limit fuel (-1) r = (mkRd (mkSock [] v Closed) k w, Ok tt)
      | (k, Some f) => exists s w, read_block_loop sink limit fuel (-1) r = (mkRd s k w, fail_res f)
      end.
  Proof.
    induction fuel as [|fuel IH]; intros r HLIM HFIN HF; [lia|]. cbn [read_block_loop].
    destruct (pending (r_sock r)) as [|x0 p0] eqn:EP.
    - exists []. split; [split; [reflexivity|constructor]|]. cbn [hand_over]. rewrite HFIN. destruct r as [[p v f] k w]. cbn in *. subst. exists v, w. reflexivity.
    - assert (HNE : pending (r_sock r) <> []) by congruence. rewrite <- EP in *. clear x0 p0 EP. cbn [Z.ltb Z.compare orb].
      destruct (seen_spec HTTP_BUFF_LENGTH (r_sock r) HNE ltac:(unfold HTTP_BUFF_LENGTH; lia)) as (q & HR & HD & HLD & HC).
      set (d := seen HTTP_BUFF_LENGTH (r_sock r)) in *. clearbody d. rewrite HC.
      replace (0 <=? limit) with false by (symmetry; apply Z.leb_gt; lia). cbn [andb].
      unfold sink_write. cbn [r_sink r_sock r_written].
      destruct (sink (r_sink r) d) as [k1 [fl|]] eqn:ES.
      + exists (d :: match q with [] => [] | _ => [q] end). split.
        { split; [cbn [concat]; rewrite HR; destruct q; cbn [concat]; rewrite ?app_nil_r; reflexivity|]. constructor; [assumption|]. destruct q; repeat constructor. discriminate. }
        cbn [hand_over]. rewrite ES.
        destruct fl as [e|]; cbn [sbind fail_res]; eauto.
      + cbn [sbind]. specialize (IH (mkRd (mkSock q (tl (sees (r_sock r))) (fin (r_sock r))) k1 (u32 (r_written r + blen d)))).
        cbn [r_sock r_sink fin pending] in IH. destruct IH as (ps & (E & HNP) & HM); auto.
        { rewrite HR, app_length in HF. destruct d; [congruence|]. cbn in HF. lia. }
        exists (d :: ps). split; [split; [cbn [concat]; rewrite E; symmetry; assumption|constructor; assumption]|]. cbn [hand_over]. rewrite ES. exact HM.
  Qed.

  (** A chunked body cut before the end of its last size line. *)
  Lemma chunks_cut : forall body trailer wire, chunked body trailer wire -> trailer = [] -> blen body < 2 ^ 63 ->
    forall p q, wire = p ++ q -> 2 < blen q -> forall fuel h (r : rd (K:=K)), pending (r_sock r) = p -> (List.length p < fuel)%nat ->
    forall h', snd (read_chunks sink limit fuel h r) <> Ok h'.
  Proof.
    assert (NOLINE : forall fuel h (r : rd (K:=K)) h', find_char 10 (pending (r_sock r)) = None -> snd (read_chunks sink limit fuel h r) <> Ok h').
    { intros [|fuel] h r h' H; cbn [read_chunks]; [discriminate|]. unfold read_chunk_size.
      pose proof (no_lf_no_line false (-1) (r_sock r) H) as HN. destruct (read_line_opt false (-1) false (r_sock r)) as [s [l|e|]]; cbn [snd] in HN.
      - exfalso. apply (HN l). reflexivity.
      - discriminate.
      - discriminate. }
    induction 1 as [size ext trailer HS HE HT|size ext data body trailer wire HS HD HE HC IH]; intros HTR HB p q EW HQ fuel h r EP HF h'.
    - subst trailer. cbn [flat_map app] in EW. destruct (size_line size 0 ext p q crlf HS HE EW) as [(p' & -> & E)|HN]; [|apply NOLINE; rewrite EP; exact HN].
      exfalso. apply (f_equal blen) in E. rewrite blen_app in E. change (blen crlf) with 2 in E. pose proof (blen_nonneg p'). lia.
    - destruct (size_line size _ ext p q (data ++ crlf ++ wire) HS HE EW) as [(p' & -> & E)|HN]; [|apply NOLINE; rewrite EP; exact HN].
      rewrite <- blen_zlen in HS. rewrite blen_app in HB. pose proof (blen_nonneg body). pose proof (blen_pos _ HD).
      destruct fuel as [|fuel]; [discriminate|]. cbn [read_chunks]. destruct r as [[pp v f] k w]. cbn [r_sock pending r_sink r_written] in *. subst pp.
      destruct (read_chunk_size_at size (blen data) ext p' v f HS ltac:(lia) ltac:(lia) HE) as (v1 & E1). rewrite E1.
      cbn [with_sock sbind fst snd r_sink r_written r_sock].
      replace (blen data =? 0) with false by (symmetry; apply Z.eqb_neq; lia).
      destruct ((0 <=? limit) && (2 ^ 63 <=? w + blen data)) eqn:EL1; [discriminate|].
      destruct ((0 <=? limit) && (limit <? w + blen data)) eqn:EL2; [discriminate|].
      destruct (Z.le_gt_cases (blen data) (blen p')) as [HLE|HGT].
      2:{ pose proof (read_block_short (blen data) (mkRd (mkSock p' v1 f) k w) ltac:(lia) HGT) as HB0.
          destruct (read_block sink limit (blen data) (mkRd (mkSock p' v1 f) k w)) as [r2 [[]|e|]]; cbn [snd sbind] in *; try discriminate. congruence. }
      assert (HPD : exists p2, p' = data ++ p2 /\ crlf ++ wire = p2 ++ q).
      { exists (zdrop (blen data) p'). assert (E2 : p' = data ++ zdrop (blen data) p').
        { rewrite <- (ztake_zdrop _ (blen data) p') at 1. f_equal. apply (f_equal (ztake (blen data))) in E. unfold ztake, blen, bytes in *.
          rewrite !firstn_app in E. rewrite !Nat2Z.id in *. rewrite firstn_all, Nat.sub_diag in E. cbn [firstn] in E.
          replace (Datatypes.length data - Datatypes.length p')%nat with O in E by lia. cbn [firstn] in E. rewrite !app_nil_r in E. congruence. }
        split; [exact E2|]. rewrite E2 in E. rewrite <- app_assoc in E. apply app_inv_head in E. exact E. }
      destruct HPD as (p2 & -> & E2).
      destruct (read_block sink limit (blen data) (mkRd (mkSock (data ++ p2) v1 f) k w)) as [r2 x2] eqn:EB. destruct x2 as [[]|e|]; cbn [sbind]; try discriminate.
      assert (HS2 : pending (r_sock r2) = p2).
      {(* conservation of input, whatever the sink *)
        clear IH NOLINE. unfold read_block in EB. replace (blen data =? 0) with false in EB by (symmetry; apply Z.eqb_neq; lia).
        destruct ((0 <=? limit) && (limit <? blen data)); [discriminate|]. cbn [r_sock pending] in EB.
        assert (HG : forall fuel n (r1 r3 : rd (K:=K)) a b, pending (r_sock r1) = a ++ b -> blen a = n -> 1 <= n ->
                  read_block_loop sink limit fuel n r1 = (r3, Ok tt) -> pending (r_sock r3) = b).
        { clear. induction fuel as [|fuel IH]; intros n r1 r3 a b HP HA HN H; [discriminate|]. cbn [read_block_loop] in H.
          destruct (pending (r_sock r1)) as [|x0 p0] eqn:EP.
          - apply (f_equal blen) in HP. rewrite blen_app in HP. change (blen []) with 0 in HP. pose proof (blen_nonneg b). lia.
          - assert (HNE : pending (r_sock r1) <> []) by congruence. rewrite <- EP in *. clear x0 p0 EP.
            set (want := if (n <? 0) || (HTTP_BUFF_LENGTH <? n) then HTTP_BUFF_LENGTH else n) in H.
            assert (HW : 1 <= want <= n).
            { unfold want, HTTP_BUFF_LENGTH. destruct (Z.ltb_spec n 0), (Z.ltb_spec 65536 n); cbn [orb]; lia. }
            destruct (seen_spec want (r_sock r1) HNE ltac:(lia)) as (t & HR & HD & HLD & HC). set (d := seen want (r_sock r1)) in *. clearbody d. rewrite HC in H.
            destruct ((0 <=? limit) && (limit <? r_written r1)); [discriminate|].
            destruct (sink_write sink d _) as [r2 x] eqn:ES. destruct x as [[]|e|]; cbn [sbind] in H; try discriminate.
            pose proof (sink_write_sock _ _ _ _ ES) as HS. cbn [r_sock] in HS.
            replace (n <? 0) with false in H by (symmetry; apply Z.ltb_ge; lia).
            assert (HAD : exists a2, a = d ++ a2 /\ t = a2 ++ b).
            { exists (zdrop (blen d) a). rewrite HR in HP.
              assert (E2 : a = d ++ zdrop (blen d) a).
              { rewrite <- (ztake_zdrop _ (blen d) a) at 1. f_equal. apply (f_equal (ztake (blen d))) in HP. unfold ztake, blen, bytes in *.
                rewrite !firstn_app in HP. rewrite !Nat2Z.id in *. rewrite firstn_all, Nat.sub_diag in HP. cbn [firstn] in HP.
                replace (Datatypes.length d - Datatypes.length a)%nat with O in HP by lia. cbn [firstn] in HP. rewrite !app_nil_r in HP. congruence. }
              split; [exact E2|]. rewrite E2 in HP. rewrite <- app_assoc in HP. apply app_inv_head in HP. exact HP. }
            destruct HAD as (a2 & -> & ->). rewrite blen_app in HA. pose proof (blen_pos _ HD).
            destruct (Z.eqb_spec (n - blen d) 0) as [E0|E0].
            + inversion H; subst r3. rewrite HS. cbn [pending]. assert (a2 = []) by (apply zlen_0_nil; rewrite <- blen_zlen; lia). subst a2. reflexivity.
            + pose proof (blen_nonneg a2). eapply IH; [|reflexivity| |replace (blen a2) with (n - blen d) by lia; exact H]; [rewrite HS; reflexivity|lia]. }
        eapply HG; [| |exact H0|exact EB]; [reflexivity|reflexivity]. }
      (* the line end after the data *)
      destruct p2 as [|c1 p2]; [|destruct p2 as [|c2 p2]].
      + pose proof (no_lf_no_line false (-1) (r_sock r2) ltac:(rewrite HS2; reflexivity)) as HN.
        destruct (read_line_opt false (-1) false (r_sock r2)) as [s [l|e|]]; cbn [snd fst with_sock sbind] in *; try discriminate. exfalso. apply (HN l). reflexivity.
      + cbn [crlf app] in E2. inversion E2; subst c1.
        pose proof (no_lf_no_line false (-1) (r_sock r2) ltac:(rewrite HS2; reflexivity)) as HN.
        destruct (read_line_opt false (-1) false (r_sock r2)) as [s [l|e|]]; cbn [snd fst with_sock sbind] in *; try discriminate. exfalso. apply (HN l). reflexivity.
      + cbn [crlf app] in E2. inversion E2; subst c1 c2. destruct r2 as [[pp v2 f2] k2 w2]. cbn [r_sock pending] in HS2. subst pp.
        destruct (read_line_crlf false (-1) false [] p2 v2 f2 ltac:(intros []) ltac:(intros [|? ?]; discriminate) eq_refl) as (v3 & E3).
        cbn [crlf app] in E3. cbn [r_sock]. rewrite E3. cbn [fst snd with_sock sbind r_sock r_sink r_written].
        eapply IH; [assumption|lia| | |reflexivity|].
        * match goal with HH : wire = p2 ++ _ |- _ => exact HH end.
        * assumption.
        * rewrite !app_length in HF. cbn in HF. cbn [r_sock pending]. unfold bytes in *. lia.
  Qed.
End Sink.
