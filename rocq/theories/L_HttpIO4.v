(** Reading arbitrary input into a consumer that keeps everything; sending. *)
From Coq Require Import Lia.
From Verif Require Import Base Text M_Base64 M_Iso M_Url M_Http M_HttpIO S_Http L_Base L_HttpIO L_HttpIO2 L_HttpIO3.

(** The consumer that keeps what it gets. *)
Definition keep (k d : bytes) : bytes * option fail := (k ++ d, None).

Lemma line_result_safe : forall check limit opt first acc p f, line_result check limit opt first acc p f <> UB.
Proof.
  intros. unfold line_result. destruct (find_char 10 p).
  - destruct (too_long check limit (blen acc + z + 1)); discriminate.
  - destruct ((0 <? blen p) && too_long check limit (blen acc + blen p)); [discriminate|].
    destruct f; [destruct (first && (blen p =? 0) && opt)|destruct opt|]; discriminate.
Qed.

(** A line never costs nothing, unless the input is at its end. *)
Lemma read_line_any : forall check limit opt s, exists p v x, read_line_opt check limit opt s = (mkSock p v (fin s), x)
  /\ x <> UB /\ (List.length p <= List.length (pending s))%nat
  /\ (forall l, x = Ok l -> l = [] \/ (List.length p < List.length (pending s))%nat)
  /\ (forall l, x = Ok l -> opt = false -> (List.length p < List.length (pending s))%nat).
Proof.
  intros. unfold read_line_opt.
  destruct (read_line_loop_spec (S (List.length (pending s))) check limit opt true [] s ltac:(lia)) as (p & v & E & EA & EL).
  exists p, v, (line_result check limit opt true [] (pending s) (fin s)). split; [exact E|]. split; [apply line_result_safe|].
  split; [assumption|].
  assert (HX : forall l, line_result check limit opt true [] (pending s) (fin s) = Ok l ->
               (l = [] /\ opt = true) \/ (List.length p < List.length (pending s))%nat).
  { intros l HL. pose proof (EA l HL) as HA. unfold line_result in HL. unfold after_line in HA.
    destruct (find_char 10 (pending s)) as [i|] eqn:EF.
    - right. destruct (find_char_some _ _ _ EF) as (a & x & b & EP & _ & EI & _). rewrite HA, EP.
      unfold zdrop. rewrite skipn_length, app_length. cbn. unfold blen in EI. lia.
    - destruct ((0 <? blen (pending s)) && too_long check limit (blen [] + blen (pending s))); [discriminate|].
      destruct (fin s).
      + destruct (true && (blen (pending s) =? 0) && opt) eqn:EO; [|discriminate]. apply andb_true_iff in EO as [_ EO].
        inversion HL. auto.
      + destruct opt; [inversion HL; auto|discriminate].
      + discriminate. }
  split; intros l HL; [destruct (HX l HL) as [[H _]|H]; auto|]. intros ->. destruct (HX l HL) as [[_ H]|H]; [discriminate|assumption].
Qed.

Lemma read_header_loop_any : forall fuel opt h s, (List.length (pending s) < fuel)%nat ->
  exists p v x, read_header_loop fuel opt h s = (mkSock p v (fin s), x) /\ x <> UB
    /\ (List.length p <= List.length (pending s))%nat.
Proof.
  induction fuel as [|fuel IH]; intros opt h s HF; [lia|]. cbn [read_header_loop].
  destruct (read_line_any false (-1) opt s) as (p & v & x & E & HU & HL & HX & _). rewrite E. cbn [sbind].
  destruct x as [l|e|]; [|exists p, v, (Err e); repeat split; auto; discriminate|congruence].
  destruct l as [|c l]; [exists p, v, (Ok h); repeat split; auto; discriminate|].
  destruct (HX (c :: l) eq_refl) as [H|H]; [discriminate|].
  assert (HI : forall o h', exists p' v' x', read_header_loop fuel o h' (mkSock p v (fin s)) = (mkSock p' v' (fin s), x') /\ x' <> UB
               /\ (List.length p' <= List.length (pending s))%nat).
  { intros o h'. destruct (IH o h' (mkSock p v (fin s))) as (p' & v' & x' & E' & HU' & HL'); [cbn; lia|]. cbn [pending fin] in *.
    exists p', v', x'. repeat split; auto. lia. }
  destruct (get_header_value (c :: l)) as [[n w]|]; [|exists p, v, (err HTTP_VALUE); repeat split; auto; discriminate].
  destruct n as [|n0 n]; [|apply HI]. destruct h; [exists p, v, (err HTTP_VALUE); repeat split; auto; discriminate|apply HI].
Qed.

Section Limit.
  Variable limit : Z.
  (** The counter agrees with what was kept. *)
  Definition counted (r : rd (K:=bytes)) : Prop := r_written r = u32 (blen (r_sink r)).

  Lemma u32_add : forall a b, u32 (u32 a + b) = u32 (a + b).
  Proof. intros. unfold u32, unsigned. apply Zplus_mod_idemp_l. Qed.

  Lemma block_any : forall fuel n (r r' : rd (K:=bytes)) x, (List.length (pending (r_sock r)) < fuel)%nat -> n < 0 \/ 1 <= n ->
    counted r -> read_block_loop keep limit fuel n r = (r', x) ->
    x <> UB /\ counted r' /\ (List.length (pending (r_sock r')) <= List.length (pending (r_sock r)))%nat /\
    exists d, r_sink r' = r_sink r ++ d /\ (0 <= n -> blen d <= n /\ (x = Ok tt -> blen d = n)) /\
      (0 <= limit < 2 ^ 31 -> blen (r_sink r) <= limit + HTTP_BUFF_LENGTH -> blen (r_sink r') <= limit + HTTP_BUFF_LENGTH).
  Proof.
    induction fuel as [|fuel IH]; intros n r r' x HF HN HC H; [lia|]. cbn [read_block_loop] in H.
    destruct (pending (r_sock r)) as [|x0 p0] eqn:EP.
    - destruct r as [[p v f] k w]. cbn in EP. subst p. cbn [r_sock fin] in H. inversion H; subst. clear H.
      split; [destruct f; try discriminate; destruct (n <? 0); discriminate|]. split; [assumption|]. split; [cbn; lia|].
      exists []. rewrite app_nil_r. split; [reflexivity|]. split; [|auto]. intro HN0. split; [cbn; lia|].
      destruct f; try discriminate. replace (n <? 0) with false by (symmetry; apply Z.ltb_ge; lia). discriminate.
    - assert (HNE : pending (r_sock r) <> []) by congruence. rewrite <- EP in *. clear x0 p0 EP.
      set (want := if (n <? 0) || (HTTP_BUFF_LENGTH <? n) then HTTP_BUFF_LENGTH else n) in H.
      assert (HW : 1 <= want <= HTTP_BUFF_LENGTH /\ (0 <= n -> want <= n)).
      { unfold want, HTTP_BUFF_LENGTH in *. destruct (Z.ltb_spec n 0); destruct (Z.ltb_spec 65536 n); cbn [orb]; lia. }
      destruct (seen_spec want (r_sock r) HNE ltac:(lia)) as (q & HQ & HD & HDL & HCO).
      set (d := seen want (r_sock r)) in *. clearbody d. rewrite HCO in H.
      pose proof (blen_pos d HD) as HDP.
      assert (HLQ : (List.length q < List.length (pending (r_sock r)))%nat).
      { rewrite HQ, app_length. destruct d; [congruence|]. cbn. lia. }
      destruct ((0 <=? limit) && (limit <? r_written r)) eqn:EL.
      + inversion H; subst; clear H. split; [discriminate|]. split; [exact HC|]. split; [cbn; lia|].
        exists []. cbn [r_sink]. rewrite app_nil_r. split; [reflexivity|]. split; [|auto]. intro. split; [cbn; lia|discriminate].
      + unfold sink_write, keep in H. cbn [r_sock r_sink r_written sbind] in H.
        set (r2 := mkRd (mkSock q (tl (sees (r_sock r))) (fin (r_sock r))) (r_sink r ++ d) (u32 (r_written r + blen d))) in H.
        assert (HC2 : counted r2).
        { unfold counted, r2. cbn. rewrite blen_app, HC, u32_add. reflexivity. }
        assert (HB2 : 0 <= limit < 2 ^ 31 -> blen (r_sink r) <= limit + HTTP_BUFF_LENGTH -> blen (r_sink r2) <= limit + HTTP_BUFF_LENGTH).
        { intros HL0 HB. cbn. rewrite blen_app. unfold HTTP_BUFF_LENGTH in *.
          replace (0 <=? limit) with true in EL by (symmetry; apply Z.leb_le; lia). cbn in EL. apply Z.ltb_ge in EL.
          rewrite HC in EL. pose proof (blen_nonneg (r_sink r)). rewrite u32_id in EL by (unfold in_u32; lia). lia. }
        destruct (Z.ltb_spec n 0) as [En|En].
        * destruct (IH n r2 r' x ltac:(cbn; lia) HN HC2 H) as (H1 & H2 & H3 & d' & H4 & H5 & H6).
          split; [assumption|]. split; [assumption|]. split; [cbn in H3; lia|]. exists (d ++ d').
          rewrite H4. cbn [r2 r_sink]. rewrite <- app_assoc. split; [reflexivity|]. split; [lia|].
          intros. rewrite app_assoc. cbn in H6. rewrite H4 in H6. cbn in H6. apply H6; auto.
        * destruct (Z.eqb_spec (n - blen d) 0) as [E0|E0].
          -- inversion H; subst; clear H. split; [discriminate|]. split; [exact HC2|]. split; [cbn; lia|].
             exists d. split; [reflexivity|]. split; [lia|]. exact HB2.
          -- destruct (IH (n - blen d) r2 r' x ltac:(cbn; lia) ltac:(lia) HC2 H) as (H1 & H2 & H3 & d' & H4 & H5 & H6).
             split; [assumption|]. split; [assumption|]. split; [cbn in H3; lia|]. exists (d ++ d').
             rewrite H4. cbn [r2 r_sink]. rewrite <- app_assoc. split; [reflexivity|]. split.
             ++ intro. rewrite blen_app. destruct (H5 ltac:(lia)) as [H7 H8]. split; [lia|]. intro HX. specialize (H8 HX). lia.
             ++ intros. rewrite app_assoc. cbn in H6. rewrite H4 in H6. cbn in H6. apply H6; auto.
  Qed.

  Lemma read_block_any : forall n (r r' : rd (K:=bytes)) x, counted r -> read_block keep limit n r = (r', x) ->
    x <> UB /\ counted r' /\ (List.length (pending (r_sock r')) <= List.length (pending (r_sock r)))%nat /\
    exists d, r_sink r' = r_sink r ++ d /\ (0 <= n -> blen d <= n) /\
      (0 <= limit < 2 ^ 31 -> blen (r_sink r) <= limit + HTTP_BUFF_LENGTH -> blen (r_sink r') <= limit + HTTP_BUFF_LENGTH).
  Proof.
    intros n r r' x HC H. unfold read_block in H. destruct (Z.eqb_spec n 0) as [E|E].
    - inversion H; subst; clear H. split; [discriminate|]. repeat split; auto. exists []. rewrite app_nil_r.
      repeat split; auto; try (intro; cbn; lia).
    - destruct ((0 <=? limit) && (limit <? n)).
      + inversion H; subst; clear H. split; [discriminate|]. repeat split; auto. exists []. rewrite app_nil_r.
        repeat split; auto; try (intro; cbn; lia).
      + destruct (block_any _ n r r' x (Nat.lt_succ_diag_r _) ltac:(lia) HC H) as (H1 & H2 & H3 & d & H4 & H5 & H6).
        repeat split; auto. exists d. repeat split; auto. intro HN. apply (H5 HN).
  Qed.

  Lemma with_sock_eq : forall A (r : rd (K:=bytes)) p v x, with_sock (A:=A) r (mkSock p v (fin (r_sock r)), x)
    = (mkRd (mkSock p v (fin (r_sock r))) (r_sink r) (r_written r), x).
  Proof. reflexivity. Qed.

  Lemma chunks_any : forall fuel h (r r' : rd (K:=bytes)) x, (List.length (pending (r_sock r)) < fuel)%nat -> counted r ->
    limit < 2 ^ 31 -> (0 <= limit -> blen (r_sink r) <= limit) -> read_chunks keep limit fuel h r = (r', x) ->
    (x = UB -> 0 <= limit) /\ (0 <= limit -> blen (r_sink r') <= limit).
  Proof.
    induction fuel as [|fuel IH]; intros h r r' x HF HC HLM HB H; [lia|]. cbn [read_chunks] in H.
    unfold read_chunk_size in H.
    destruct (read_line_any false (-1) false (r_sock r)) as (p & v & y & E & HU & HL & _ & HX). rewrite E in H. cbn [sbind] in H.
    destruct y as [l|e|]; [|cbn in H; inversion H; subst; cbn; split; [discriminate|auto]|congruence].
    assert (HS : forall z, read_hex_long l = Some z -> 0 <= z ->
      (if z =? 0 then with_sock (mkRd (mkSock p v (fin (r_sock r))) (r_sink r) (r_written r)) (read_header true h (mkSock p v (fin (r_sock r))))
       else if (0 <=? limit) && (2 ^ 63 <=? r_written r + z) then (mkRd (mkSock p v (fin (r_sock r))) (r_sink r) (r_written r), UB)
       else if (0 <=? limit) && (limit <? r_written r + z) then (mkRd (mkSock p v (fin (r_sock r))) (r_sink r) (r_written r), err HTTP_BODY_TOO_LONG)
       else sbind (read_block keep limit z (mkRd (mkSock p v (fin (r_sock r))) (r_sink r) (r_written r))) (fun r0 _ =>
            sbind (with_sock r0 (read_line_opt false (-1) false (r_sock r0))) (fun r0 line =>
              match line with [] => read_chunks keep limit fuel h r0 | _ => (r0, err HTTP_VALUE) end))) = (r', x) ->
      (x = UB -> 0 <= limit) /\ (0 <= limit -> blen (r_sink r') <= limit)).
    { clear H. intros z Hz Hz0 H. specialize (HX l eq_refl eq_refl).
      destruct (Z.eqb_spec z 0) as [E0|E0].
      - unfold read_header in H.
        destruct (read_header_loop_any (S (List.length p)) true h (mkSock p v (fin (r_sock r)))) as (p1 & v1 & x1 & E1 & HU1 & _); [cbn; lia|].
        cbn [pending fin] in *. rewrite E1 in H. cbn in H. inversion H; subst. cbn. split; [congruence|auto].
      - destruct ((0 <=? limit) && (2 ^ 63 <=? r_written r + z)) eqn:EO.
        { inversion H; subst. cbn. split; [|auto]. intros _. apply andb_true_iff in EO as [EO _]. apply Z.leb_le in EO. lia. }
        destruct ((0 <=? limit) && (limit <? r_written r + z)) eqn:ET; [inversion H; subst; cbn; split; [discriminate|auto]|].
        destruct (read_block keep limit z (mkRd (mkSock p v (fin (r_sock r))) (r_sink r) (r_written r))) as [r1 x1] eqn:EB.
        destruct (read_block_any z (mkRd (mkSock p v (fin (r_sock r))) (r_sink r) (r_written r)) r1 x1 HC EB)
          as (H1 & H2 & H3 & d & H4 & H5 & _). cbn [r_sink r_sock pending] in *. specialize (H5 Hz0).
        assert (HB1 : 0 <= limit -> blen (r_sink r1) <= limit).
        { intro HL0. rewrite H4, blen_app. replace (0 <=? limit) with true in ET by (symmetry; apply Z.leb_le; assumption).
          cbn in ET. apply Z.ltb_ge in ET. specialize (HB HL0). unfold counted in HC.
          pose proof (blen_nonneg (r_sink r)). rewrite u32_id in HC by (unfold in_u32; lia). lia. }
        destruct x1 as [u|e1|]; [|cbn in H; inversion H; subst; split; [discriminate|auto]|congruence].
        cbn [sbind] in H.
        destruct (read_line_any false (-1) false (r_sock r1)) as (p2 & v2 & x2 & E2 & HU2 & HL2 & _ & _).
        rewrite E2 in H. rewrite with_sock_eq in H. cbn [sbind] in H.
        destruct x2 as [l2|e2|]; [|cbn in H; inversion H; subst; cbn; split; [discriminate|auto]|congruence].
        destruct l2; [|inversion H; subst; cbn; split; [discriminate|auto]].
        eapply IH in H; auto; cbn; lia. }
    destruct (read_hex_long l) as [z|] eqn:EZ; [|cbn in H; inversion H; subst; cbn; split; [discriminate|auto]].
    destruct (Z.ltb_spec z 0) as [Ez|Ez]; [cbn in H; inversion H; subst; cbn; split; [discriminate|auto]|].
    apply (HS z eq_refl Ez). exact H.
  Qed.

  Lemma content_any : forall h request (r r' : rd (K:=bytes)) x, r_sink r = [] -> r_written r = 0 -> limit < 2 ^ 31 ->
    read_content keep limit h request r = (r', x) ->
    (x = UB -> 0 <= limit) /\
    (0 <= limit -> (header_get (str "Content-Length") 0 h <> None \/ header_get (str "Transfer-Encoding") 0 h <> None) ->
       blen (r_sink r') <= limit) /\
    (0 <= limit -> blen (r_sink r') <= limit + HTTP_BUFF_LENGTH).
  Proof.
    intros h request r r' x HK HW HLM H.
    assert (HC : counted r) by (unfold counted; rewrite HK, HW; reflexivity).
    assert (HB : 0 <= limit -> blen (r_sink r) <= limit) by (rewrite HK; cbn; auto).
    unfold read_content in H. destruct (header_get (str "Content-Length") 0 h) as [w|].
    - destruct (read_dec_long w) as [n|]; [|inversion H; subst; unfold HTTP_BUFF_LENGTH; repeat split; auto; try discriminate; intros HL; specialize (HB HL); lia].
      destruct (Z.ltb_spec n 0); [inversion H; subst; unfold HTTP_BUFF_LENGTH; repeat split; auto; try discriminate; intros HL; specialize (HB HL); lia|].
      destruct ((0 <=? limit) && (limit <? n)) eqn:EL;
        [inversion H; subst; unfold HTTP_BUFF_LENGTH; repeat split; auto; try discriminate; intros HL; specialize (HB HL); lia|].
      destruct (read_block keep limit n r) as [r1 x1] eqn:EB. destruct (read_block_any n r r1 x1 HC EB) as (H1 & _ & _ & d & H4 & H5 & _).
      specialize (H5 ltac:(lia)). rewrite HK in H4. cbn in H4.
      assert (r' = r1 /\ (x = UB -> x1 = UB)) as [-> HXU].
      { destruct x1; cbn in H; inversion H; subst; split; auto; discriminate. }
      assert (HD : 0 <= limit -> blen (r_sink r1) <= limit).
      { intro HL. rewrite H4. replace (0 <=? limit) with true in EL by (symmetry; apply Z.leb_le; assumption). cbn in EL.
        apply Z.ltb_ge in EL. lia. }
      split; [intro E; elim H1; auto|]. split; [auto|]. intro HL. specialize (HD HL). unfold HTTP_BUFF_LENGTH. lia.
    - destruct (header_get (str "Transfer-Encoding") 0 h) as [w|].
      + destruct (bytes_eqb (map to_upper w) (str "CHUNKED")).
        * unfold read_chunked in H. destruct (chunks_any _ _ _ _ _ (Nat.lt_succ_diag_r _) HC HLM HB H) as [H1 H2].
          split; [assumption|]. split; [auto|]. intro HL. specialize (H2 HL). unfold HTTP_BUFF_LENGTH. lia.
        * inversion H; subst; unfold HTTP_BUFF_LENGTH; repeat split; auto; try discriminate; intros HL; specialize (HB HL); lia.
      + destruct request.
        * inversion H; subst; unfold HTTP_BUFF_LENGTH; repeat split; auto; try discriminate; intros HL; specialize (HB HL); lia.
        * destruct (read_block keep limit (-1) r) as [r1 x1] eqn:EB. destruct (read_block_any (-1) r r1 x1 HC EB) as (H1 & _ & _ & d & H4 & _ & H6).
          assert (r' = r1 /\ (x = UB -> x1 = UB)) as [-> HXU].
          { destruct x1; cbn in H; inversion H; subst; split; auto; discriminate. }
          split; [intro E; elim H1; auto|]. split; [intros _ [H7|H7]; congruence|]. intro HL. apply H6; [lia|]. rewrite HK. unfold HTTP_BUFF_LENGTH. cbn. lia.
  Qed.
End Limit.

(** ** Sending *)
Lemma send_loop_spec : forall watch tries data o e, data <> [] -> send_loop watch data tries = (o, e) ->
  (exists r, data = o ++ r) /\ (e = Sent_all -> o = data).
Proof.
  induction tries as [|t tries IH]; intros data o e HD H; cbn in H.
  - inversion H; subst. split; [exists data; reflexivity|discriminate].
  - destruct t as [| |readable sent epipe]; try (inversion H; subst; split; [exists data; reflexivity|discriminate]).
    destruct (watch && readable); [inversion H; subst; split; [exists data; reflexivity|discriminate]|].
    destruct sent as [n0|]; [|inversion H; subst; split; [exists data; reflexivity|discriminate]].
    set (n := Z.max 0 (Z.min n0 (Z.min HTTP_BUFF_LENGTH (blen data)))) in H.
    destruct (Z.eqb_spec n 0) as [E0|E0]; [apply IH; assumption|].
    destruct (Z.eqb_spec (blen data - n) 0) as [E1|E1].
    + inversion H; subst. split; [exists []; rewrite app_nil_r; reflexivity|reflexivity].
    + destruct (send_loop watch (zdrop n data) tries) as [o1 e1] eqn:E2. inversion H; subst. clear H.
      assert (HZ : zdrop n data <> []).
      { intro E. apply (f_equal blen) in E. rewrite !blen_zlen in E. pose proof (blen_nonneg data).
        rewrite zlen_zdrop in E by (rewrite <- blen_zlen; unfold n; lia). rewrite <- blen_zlen in E. cbn in E. lia. }
      destruct (IH _ _ _ HZ E2) as [(r & ER) HA]. split.
      * exists r. rewrite <- app_assoc, <- ER. symmetry. apply ztake_zdrop.
      * intro E. rewrite (HA E). apply ztake_zdrop.
Qed.
