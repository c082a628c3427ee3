(** Lemmas about serving arbitrary input: every round reads something, and nothing undefined happens. *)
From Coq Require Import Lia.
From Verif Require Import Base Value Text M_Marshal M_BinUnmarshal M_TreeBuilder M_Values M_Base64 M_Iso M_Url M_Http M_HttpIO M_HttpWriter M_Registry M_Server
  S_Http S_Registry S_Server L_Base L_Http L_HttpIO L_HttpIO2 L_HttpIO3 L_HttpIO4 L_HttpIO5 L_HttpWriter L_Registry L_Registry2 P_HttpIO P_HttpWriter P_Registry L_Server L_Server2.

Section Sink.
  Context {K : Type}.
  Variable sink : K -> bytes -> K * option fail.
  Variable inv : K -> Prop.
  Hypothesis SINK : forall k d k' f, inv k -> sink k d = (k', f) -> f <> Some Undef /\ (f = None -> inv k').

  Lemma write_safe : forall d (r r' : rd (K:=K)) x, inv (r_sink r) -> sink_write sink d r = (r', x) ->
    x <> UB /\ (x = Ok tt -> inv (r_sink r')) /\ r_sock r' = r_sock r.
  Proof.
    intros d r r' x HI H. pose proof (sink_write_sock sink _ _ _ _ H) as HS. unfold sink_write in H. destruct (sink (r_sink r) d) as [k f] eqn:E.
    destruct (SINK _ _ _ _ HI E) as [H1 H2]. destruct f as [[e|]|]; inversion H; subst; cbn; (split; [congruence|]); split; auto; discriminate.
  Qed.
  Lemma block_safe : forall fuel n (r r' : rd (K:=K)) x, (List.length (pending (r_sock r)) < fuel)%nat -> n < 0 \/ 1 <= n -> inv (r_sink r) ->
    read_block_loop sink (-1) fuel n r = (r', x) ->
    x <> UB /\ (x = Ok tt -> inv (r_sink r')) /\ (List.length (pending (r_sock r')) <= List.length (pending (r_sock r)))%nat.
  Proof.
    induction fuel as [|fuel IH]; intros n r r' x HF HN HI H; [lia|]. cbn [read_block_loop] in H.
    destruct (pending (r_sock r)) as [|x0 p0] eqn:EP.
    - inversion H; subst. split; [destruct (fin (r_sock r')); try discriminate; destruct (n <? 0); discriminate|]. split; [auto|]. rewrite EP. lia.
    - assert (HNE : pending (r_sock r) <> []) by congruence. rewrite <- EP in *. clear x0 p0 EP.
      set (want := if (n <? 0) || (HTTP_BUFF_LENGTH <? n) then HTTP_BUFF_LENGTH else n) in H.
      assert (HW : 1 <= want). { unfold want, HTTP_BUFF_LENGTH in *. destruct (Z.ltb_spec n 0); destruct (Z.ltb_spec 65536 n); cbn [orb]; lia. }
      destruct (seen_spec want (r_sock r) HNE HW) as (q & HQ & HD & HDL & HCO).
      assert (HDN : 0 <= n -> blen (seen want (r_sock r)) <= n).
      { intro. unfold want in *. replace (n <? 0) with false in HDL by (symmetry; apply Z.ltb_ge; lia). cbn [orb] in HDL |- *.
        replace (n <? 0) with false by (symmetry; apply Z.ltb_ge; lia). cbn [orb].
        destruct (Z.ltb_spec HTTP_BUFF_LENGTH n); lia. }
      set (d := seen want (r_sock r)) in *. clearbody d. rewrite HCO in H. cbn [Z.leb andb] in H.
      assert (HLQ : (List.length q < List.length (pending (r_sock r)))%nat).
      { rewrite HQ, app_length. destruct d; [congruence|]. cbn. lia. }
      destruct (sink_write sink d _) as [r2 y] eqn:EW. apply write_safe in EW as (E1 & E2 & E3); [|exact HI]. cbn [r_sock] in E3.
      destruct y as [[]|e|]; cbn [sbind] in H; [| |congruence].
      2:{ inversion H; subst. split; [discriminate|]. split; [discriminate|]. rewrite E3. cbn. lia. }
      assert (HL2 : (List.length (pending (r_sock r2)) < List.length (pending (r_sock r)))%nat) by (rewrite E3; cbn; lia).
      destruct (Z.ltb_spec n 0).
      + apply IH in H; [|lia|auto|apply E2; reflexivity]. destruct H as (A & B & C). repeat split; auto. lia.
      + destruct (Z.eqb_spec (n - blen d) 0).
        * inversion H; subst. split; [discriminate|]. split; [auto|lia].
        * specialize (HDN ltac:(lia)). pose proof (blen_pos d HD).
          apply IH in H; [|lia|lia|apply E2; reflexivity]. destruct H as (A & B & C). repeat split; auto. lia.
  Qed.
  Lemma read_block_safe : forall n (r r' : rd (K:=K)) x, inv (r_sink r) -> read_block sink (-1) n r = (r', x) ->
    x <> UB /\ (x = Ok tt -> inv (r_sink r')) /\ (List.length (pending (r_sock r')) <= List.length (pending (r_sock r)))%nat.
  Proof.
    intros n r r' x HI H. unfold read_block in H. destruct (Z.eqb_spec n 0); [inversion H; subst; split; [discriminate|auto]|].
    cbn [Z.leb andb] in H. refine (block_safe _ _ _ _ _ _ _ HI H); [apply Nat.lt_succ_diag_r|lia].
  Qed.
  Lemma chunks_safe : forall fuel h (r r' : rd (K:=K)) x, (List.length (pending (r_sock r)) < fuel)%nat -> inv (r_sink r) ->
    read_chunks sink (-1) fuel h r = (r', x) ->
    x <> UB /\ (forall h', x = Ok h' -> inv (r_sink r')) /\ (List.length (pending (r_sock r')) <= List.length (pending (r_sock r)))%nat.
  Proof.
    induction fuel as [|fuel IH]; intros h r r' x HF HI H; [lia|]. cbn [read_chunks] in H. unfold read_chunk_size in H.
    destruct (read_line_any false (-1) false (r_sock r)) as (p & v & y & E & HU & HL & _ & HX). rewrite E in H. cbn [sbind] in H.
    destruct y as [l|e|]; [|cbn in H; inversion H; subst; cbn; split; [discriminate|split; [discriminate|lia]]|congruence].
    specialize (HX l eq_refl eq_refl).
    assert (BAD : forall c, with_sock (A:=Z) r (mkSock p v (fin (r_sock r)), err c) = (mkRd (mkSock p v (fin (r_sock r))) (r_sink r) (r_written r), err c)) by reflexivity.
    destruct (read_hex_long l) as [z|]; [|rewrite BAD in H; cbn in H; inversion H; subst; cbn; split; [discriminate|split; [discriminate|lia]]].
    destruct (z <? 0); [rewrite BAD in H; cbn in H; inversion H; subst; cbn; split; [discriminate|split; [discriminate|lia]]|].
    cbn [with_sock fst snd sbind] in H. unfold with_sock in H. cbn [fst snd r_sock r_sink r_written] in H. destruct (z =? 0).
    - unfold read_header in H.
      destruct (read_header_loop_any (S (List.length p)) true h (mkSock p v (fin (r_sock r)))) as (p1 & v1 & x1 & E1 & HU1 & HL1); [cbn; lia|].
      cbn [pending fin] in *. rewrite E1 in H. cbn in H. inversion H; subst. cbn. split; [assumption|]. split; [auto|lia].
    - cbn [Z.leb andb] in H. destruct (read_block sink (-1) z _) as [r1 x1] eqn:EB. apply read_block_safe in EB as (B1 & B2 & B3); [|exact HI]. cbn [r_sock pending] in B3.
      destruct x1 as [[]|e1|]; [| |congruence]; cbn [sbind] in H.
      2:{ inversion H; subst. split; [discriminate|]. split; [discriminate|lia]. }
      destruct (read_line_any false (-1) false (r_sock r1)) as (p2 & v2 & x2 & E2 & HU2 & HL2 & _). rewrite E2 in H. cbn [fst snd sbind] in H.
      destruct x2 as [l2|e2|]; [| |congruence].
      2:{ cbn in H. inversion H; subst. cbn. split; [discriminate|]. split; [discriminate|lia]. }
      cbn [sbind] in H. destruct l2.
      + apply IH in H; [|cbn; lia|apply B2; reflexivity]. cbn [r_sock pending] in H. destruct H as (A & B & C). split; [assumption|]. split; [assumption|lia].
      + inversion H; subst. cbn. split; [discriminate|]. split; [discriminate|lia].
  Qed.
  Lemma content_safe : forall h request (r r' : rd (K:=K)) x, inv (r_sink r) -> read_content sink (-1) h request r = (r', x) ->
    x <> UB /\ (forall h', x = Ok h' -> inv (r_sink r')) /\ (List.length (pending (r_sock r')) <= List.length (pending (r_sock r)))%nat.
  Proof.
    intros h request r r' x HI H. unfold read_content in H.
    assert (BL : forall n, sbind (read_block sink (-1) n r) (fun r _ => (r, Ok h)) = (r', x) ->
      x <> UB /\ (forall h', x = Ok h' -> inv (r_sink r')) /\ (List.length (pending (r_sock r')) <= List.length (pending (r_sock r)))%nat).
    { intros n HB. destruct (read_block sink (-1) n r) as [r1 x1] eqn:EB. apply read_block_safe in EB as (B1 & B2 & B3); [|exact HI].
      destruct x1 as [[]|e1|]; cbn in HB; inversion HB; subst; [split; [discriminate|]; split; auto|split; [discriminate|]; split; [discriminate|lia]|congruence]. }
    destruct (header_get (str "Content-Length") 0 h) as [v|].
    - destruct (read_dec_long v) as [n|]; [|inversion H; subst; split; [discriminate|]; split; [discriminate|lia]].
      destruct (n <? 0); [inversion H; subst; split; [discriminate|]; split; [discriminate|lia]|]. change (0 <=? -1) with false in H. cbn [andb] in H. exact (BL n H).
    - destruct (header_get (str "Transfer-Encoding") 0 h) as [v|].
      + destruct (bytes_eqb _ _); [|inversion H; subst; split; [discriminate|]; split; [discriminate|lia]].
        unfold read_chunked in H. refine (chunks_safe _ _ _ _ _ _ HI H). apply Nat.lt_succ_diag_r.
      + destruct request; [inversion H; subst; split; [discriminate|]; split; [auto|lia]|]. exact (BL (-1) H).
  Qed.
End Sink.

Lemma um_all_snoc : forall u pieces d s, um_all u s (pieces ++ [d]) = match um_all u s pieces with (s', None) => um_take u s' d | x => x end.
Proof.
  intros u. induction pieces as [|p r IH]; intros d s; [change (um_all u s ([] ++ [d])) with (um_all u s [d])|change ((p :: r) ++ [d]) with (p :: (r ++ [d]))]; cbn [um_all].
  - destruct (um_take u s d) as [s' [f|]]; reflexivity.
  - destruct (um_take u s p) as [s' [f|]]; [reflexivity|]. apply IH.
Qed.
Definition um_reached (u : unmarshaller) (s : um_state u) : Prop := exists pieces, um_all u (um_init u) pieces = (s, None).
Lemma um_sink : forall u, um_safe u -> forall k d k' f, um_reached u k -> um_take u k d = (k', f) -> f <> Some Undef /\ (f = None -> um_reached u k').
Proof.
  intros u HU k d k' f (ps & HP) HT. assert (E : um_all u (um_init u) (ps ++ [d]) = (k', f)) by (rewrite um_all_snoc, HP; exact HT).
  destruct (HU _ _ _ E) as [H1 _]. split; [assumption|]. intros ->. exists (ps ++ [d]). exact E.
Qed.

Section Any.
  Variable cfg : config.
  Variable ums : in_type -> unmarshaller.
  Hypothesis UMS : forall k, um_safe (ums k).

  Lemma read_request_any : forall st s st' s' x, read_request cfg ums st s = (st', s', x) ->
    x <> UB /\ s_extra st' = s_extra st /\ (List.length (pending s') <= List.length (pending s))%nat /\
    ((exists t, x = Ok t) \/ (exists m, x = Err (StreamError m)) -> (List.length (pending s') < List.length (pending s))%nat) /\
    (forall t, x = Ok t -> s_head st' = false -> tb_data t <> UB).
  Proof.
    intros st s st' s' x H. unfold read_request in H.
    destruct (read_line_any true (-1) true s) as (p1 & v1 & y1 & E1 & U1 & L1 & N1 & _). rewrite E1 in H.
    assert (BAD : forall st1 (s1 : sock) (e : exn), (List.length (pending s1) <= List.length (pending s))%nat -> s_extra st1 = s_extra st -> (forall m, e <> StreamError m) ->
      (st1, s1, Err e) = (st', s', x) ->
      x <> UB /\ s_extra st' = s_extra st /\ (List.length (pending s') <= List.length (pending s))%nat /\
      ((exists t, x = Ok t) \/ (exists m, x = Err (StreamError m)) -> (List.length (pending s') < List.length (pending s))%nat) /\
      (forall t, x = Ok t -> s_head st' = false -> tb_data t <> UB)).
    { intros st1 s1 e HL HX HE EQ. inversion EQ; subst. split; [discriminate|]. split; [assumption|]. split; [assumption|]. split; [|discriminate].
      intros [(t & HT)|(m & HM)]; [discriminate|]. inversion HM; subst. exfalso. eapply HE. reflexivity. }
    assert (LATE : forall st1 (s1 : sock) (e : exn), (List.length (pending s1) < List.length (pending s))%nat -> s_extra st1 = s_extra st ->
      (st1, s1, Err e) = (st', s', x) ->
      x <> UB /\ s_extra st' = s_extra st /\ (List.length (pending s') <= List.length (pending s))%nat /\
      ((exists t, x = Ok t) \/ (exists m, x = Err (StreamError m)) -> (List.length (pending s') < List.length (pending s))%nat) /\
      (forall t, x = Ok t -> s_head st' = false -> tb_data t <> UB)).
    { intros st1 s1 e HL HX EQ. inversion EQ; subst. split; [discriminate|]. split; [assumption|]. split; [lia|]. split; [auto|discriminate]. }
    destruct y1 as [line|e1|]; [| |congruence].
    2:{ destruct e1; try (eapply BAD; [| | |exact H]; [cbn; lia|reflexivity|discriminate]).
        exfalso. revert E1. clear. unfold read_line_opt. intro E1.
        destruct (read_line_loop_spec (S (List.length (pending s))) true (-1) true true [] s ltac:(lia)) as (p & v & E & _). rewrite E in E1. inversion E1 as [[A B C]].
        unfold line_result in C. destruct (find_char 10 (pending s)); [destruct (too_long _ _ _); discriminate|].
        destruct ((0 <? blen (pending s)) && _); [discriminate|]. destruct (fin s); try discriminate. destruct (_ && _); discriminate. }
    destruct line as [|c0 line]; [eapply BAD; [| | |exact H]; [cbn; lia|reflexivity|discriminate]|].
    assert (LT : (List.length p1 < List.length (pending s))%nat) by (destruct (N1 _ eq_refl) as [X|X]; [discriminate|exact X]).
    set (line0 := c0 :: line) in *. clearbody line0.
    destruct (split_by_space line0 3) as [|method [|path [|protocol [|? ?]]]]; try (eapply LATE; [| |exact H]; [cbn; lia|reflexivity]).
    destruct (negb _) in H; [eapply LATE; [| |exact H]; [cbn; lia|reflexivity]|].
    unfold read_header in H. cbn [pending] in H.
    destruct (read_header_loop_any (S (List.length p1)) false [] (mkSock p1 v1 (fin s))) as (p2 & v2 & y2 & E2 & U2 & L2); [cbn; lia|].
    cbn [pending fin] in *. rewrite E2 in H. destruct y2 as [h|e2|]; [| |congruence].
    2:{ eapply LATE; [| |exact H]; [cbn; lia|reflexivity]. }
    destruct (negb (bytes_eqb method _)).
    { destruct (bytes_eqb method _); [|eapply LATE; [| |exact H]; [cbn; lia|reflexivity]].
      inversion H; subst. split; [discriminate|]. split; [reflexivity|]. split; [cbn; lia|]. split; [intros _; cbn; lia|]. intros t _ HH. discriminate. }
    destruct (choose_out cfg _) as [o ch]. destruct (choose_in _ _) as [k|]; [|eapply LATE; [| |exact H]; [cbn; lia|reflexivity]].
    destruct (read_content (um_take (ums k)) (-1) h true _) as [r y3] eqn:E3.
    apply (content_safe (um_take (ums k)) (um_reached (ums k)) (um_sink (ums k) (UMS k))) in E3 as (U3 & I3 & L3); [|exists []; reflexivity].
    cbn [r_sock pending] in L3. destruct y3 as [h2|e3|]; [| |congruence].
    2:{ eapply LATE; [| |exact H]; [lia|reflexivity]. }
    destruct (I3 _ eq_refl) as (ps & HR). destruct (UMS k _ _ _ HR) as (_ & HFI). specialize (HFI eq_refl). destruct HFI as [F1 F2].
    destruct (um_finish (ums k) (r_sink r)) as [k2 y4]. cbn [fst snd] in F1, F2. destruct y4 as [[]|e4|]; [| |congruence].
    2:{ eapply LATE; [| |exact H]; [lia|reflexivity]. }
    inversion H; subst. split; [discriminate|]. split; [reflexivity|]. split; [lia|]. split; [intros _; lia|]. intros t E _. inversion E; subst. apply F2. reflexivity.
  Qed.
End Any.

Section Registry.
  Context {W : Type}.
  Variable message : exn -> bytes.
  Variable g : registry (W:=W).
  Hypothesis SAFE : methods_safe g.

  Lemma asked_defined : forall ps, match asked g ps with Ok _ => True | Err (FaultExn c _) => in_s32 c | Err _ => True | UB => False end.
  Proof.
    intros ps. unfold asked. destruct (zlen ps =? 1) eqn:EZ; cbn [negb]; [|cbn; unfold in_s32, FRPC_TYPE_ERROR; lia].
    destruct ps as [|p [|q ps]]; try (apply Z.eqb_eq in EZ; unfold zlen in EZ; cbn in EZ; lia).
    destruct p; cbn; try exact I. destruct (map_get s (g_methods g)); [exact I|]. cbn. unfold in_s32, FRPC_NO_SUCH_METHOD_ERROR. lia.
  Qed.
  Lemma tame_array : forall l, tame (VArray l) <-> Forall tame l.
  Proof.
    intro l. cbn [tame]. induction l as [|x l IH]; cbn [fold_right]; [split; constructor|]. rewrite IH. split; [intros []; constructor; auto|intro H; inversion H; auto].
  Qed.
  Lemma names_tame : forall l, Forall tame (map (fun e : bytes * entry (W:=W) => VString (fst e)) l).
  Proof. induction l; constructor; [exact I|assumption]. Qed.
  Lemma signature_tame : forall s cur, Forall tame cur -> Forall tame (signature_arrays cur s).
  Proof.
    induction s as [|c s IH]; intros cur H; cbn [signature_arrays]; [repeat constructor; apply tame_array; assumption|].
    destruct (b2z c =? 44); [constructor; [apply tame_array; assumption|apply IH; constructor]|]. destruct (type_word c); apply IH; [|assumption].
    apply Forall_app. split; [assumption|repeat constructor].
  Qed.
  Lemma fault_tame : forall code msg, in_s32 code -> tame (fault_struct code msg).
  Proof. intros code msg H. cbn. unfold in_s32 in H. repeat split. lia. Qed.
  Lemma entry_tame : forall x v, ends_well x -> entry_result message x = Some v -> tame v.
  Proof.
    intros x v HX H. destruct x as [u|e|]; [|destruct e|]; cbn in *; inversion H; subst; try (apply fault_tame; first [assumption|unfold in_s32, FRPC_TYPE_ERROR, FRPC_INDEX_ERROR; lia]).
    assumption.
  Qed.

  Lemma system_safe : forall n name e w ps, (nesting (VArray ps) < n)%nat -> registered g name e ->
    ends_well (snd (call_registered message g w (e_handler e) ps)).
  Proof.
    induction n as [|n IH]; intros name e w ps HN HR; [lia|]. destruct e as [h sig help]. cbn [e_handler]. destruct h.
    - change (call_registered message g w (User f) ps) with (f w ps). destruct (f w ps) as [w' x] eqn:EF. cbn [snd].
      eapply SAFE. econstructor 1; eassumption.
    - unfold call_registered. cbn [call_method snd]. unfold list_methods. destruct ps; [apply tame_array, names_tame|cbn; unfold in_s32, FRPC_TYPE_ERROR; lia].
    - unfold call_registered. cbn [call_method snd]. unfold method_help. pose proof (asked_defined ps) as H. destruct (asked g ps) as [|[]|]; cbn [bind]; try exact I; exact H.
    - unfold call_registered. cbn [call_method snd]. unfold method_signature. pose proof (asked_defined ps) as H. destruct (asked g ps) as [|[]|]; cbn [bind]; try exact I; try exact H.
      apply tame_array, signature_tame. constructor.
    - rewrite call_multicall. unfold multicall. destruct (zlen ps =? 1) eqn:EZ; cbn [negb]; [|cbn; unfold in_s32, FRPC_TYPE_ERROR; lia].
      destruct ps as [|p [|q ps]]; try (apply Z.eqb_eq in EZ; unfold zlen in EZ; cbn in EZ; lia).
      destruct p; try exact I. change (bind (check_items (str "A") [VArray l]) _) with (Ok l). cbv beta iota.
      assert (HL : (nesting (VArray l) <= n)%nat) by (pose proof (nesting_in [VArray l] (VArray l) (or_introl eq_refl)); lia). clear HN EZ HR.
      assert (HA : Forall tame (@nil value)) by constructor. revert HA. generalize (@nil value).
      revert w HL. induction l as [|v l IHl]; intros w HL acc HA; [apply tame_array; exact HA|].
      assert (HL2 : (nesting (VArray l) <= n)%nat) by (cbn in *; lia).
      pose proof (nesting_in (v :: l) v (or_introl eq_refl)) as HV. cbn [multi_loop].
      assert (HNS : Forall tame (acc ++ [fault_struct FRPC_TYPE_ERROR (str "Parameter must be struct")])).
      { apply Forall_app. split; [assumption|]. repeat constructor. cbn. discriminate. }
      destruct v; try (apply IHl; assumption). clear HNS.
      assert (HE : ends_well (snd (multi_entry (call_registered message g) g w m))).
      { unfold multi_entry, struct_at. destruct (map_get (str "methodName") m) as [nv|]; [|exact I]. cbn [bind].
        destruct nv; try exact I. cbn [as_string].
        destruct (map_get (str "params") m) as [pv|] eqn:EP; cbn [bind].
        2:{ destruct (map_get s (g_methods g)); [|destruct (g_default g)]; cbn; unfold in_s32, FRPC_NO_SUCH_METHOD_ERROR; try lia; exact I. }
        destruct (as_array pv) as [qs|e2|] eqn:EA; [| |destruct pv; discriminate].
        2:{ destruct pv; inversion EA; subst; (destruct (map_get s (g_methods g)); [|destruct (g_default g)]; cbn; unfold in_s32, FRPC_NO_SUCH_METHOD_ERROR; try lia; exact I). }
        destruct (map_get s (g_methods g)) as [e2|] eqn:ER.
        - eapply IH; [|eassumption]. destruct pv; try discriminate. inversion EA; subst. apply map_get_in in EP as (k & HI). apply nesting_member in HI. lia.
        - destruct (g_default g) as [d|] eqn:ED; [|cbn; unfold in_s32, FRPC_NO_SUCH_METHOD_ERROR; lia].
          destruct (d w s qs) as [w' x] eqn:EX. cbn [snd]. eapply SAFE. econstructor 2; eassumption. }
      destruct (multi_entry (call_registered message g) g w m) as [w1 x]. cbn [snd] in HE. destruct (entry_result message x) as [r|] eqn:EE.
      + apply IHl; [assumption|]. apply Forall_app. split; [assumption|]. repeat constructor. apply (entry_tame _ _ HE EE).
      + cbn [snd]. destruct x as [u|e|]; [discriminate EE|exact HE|contradiction].
  Qed.

  Lemma as_fault_well : forall e, ends_well (Err e) -> ends_well (Err (as_fault message e)).
  Proof. intros e H. destruct e; cbn in *; try exact I; try exact H; unfold in_s32, FRPC_TYPE_ERROR, FRPC_INDEX_ERROR, FRPC_PARSE_ERROR; lia. Qed.
  Lemma process_defined : forall w name ps, ends_well (snd (process message g w name ps)).
  Proof.
    intros w name ps. unfold process. destruct (map_get name (g_methods g)) as [e|] eqn:ER.
    - pose proof (system_safe (S (nesting (VArray ps))) name e w ps ltac:(lia) ER) as H.
      destruct (call_registered message g w (e_handler e) ps) as [w' [v|x|]]; [exact H|apply as_fault_well; exact H|exact H].
    - destruct (g_default g) as [d|] eqn:ED; [|cbn; unfold in_s32, FRPC_NO_SUCH_METHOD_ERROR; lia]. destruct (d w name ps) as [w' x] eqn:EX.
      assert (H : ends_well x) by (eapply SAFE; econstructor 2; eassumption). destruct x; [exact H|apply as_fault_well; exact H|exact H].
  Qed.

  Lemma fault_defined : forall m (s : ma_state m) w log o code msg, ma_safe m -> in_s32 code ->
    o_end (answer_fault (W:=W) m s w log o code msg) <> UB.
  Proof.
    intros m s w log o code msg H HC. unfold answer_fault. cbn [ma_run]. pose proof (H s (PFault code (c_str msg))) as HS.
    destruct (ma_call m s (PFault code (c_str msg))) as [[o' s'] [[e|]|]]; cbn in *; try congruence. destruct (HS _ HC eq_refl) as (e & X & _). discriminate.
  Qed.
  Lemma run_defined : forall m, ma_safe m -> forall cs s, Forall calm cs -> forall f, snd (ma_run m s cs) = Some f -> exists e, f = Exn e /\ forall code msg, e <> FaultExn code msg.
  Proof.
    intros m HM. induction cs as [|c cs IH]; intros s HC; [discriminate|]. inversion HC; subst. cbn [ma_run]. pose proof (fun f => HM s c f ltac:(assumption)) as HS.
    destruct (ma_call m s c) as [[o s'] [f|]]; [exact HS|]. specialize (IH s' ltac:(assumption)). destruct (ma_run m s' cs) as [[o' s''] f]. exact IH.
  Qed.
  Lemma feed_calm : forall v, tame v -> Forall calm (feed v).
  Proof.
    induction v as [z|b| |z|s|s|s|n s|d|m IH|l IH|v IH] using value_nested_ind; intro H; cbn [feed]; try (repeat constructor; exact H).
    - constructor; [exact I|]. cbn [tame] in H. induction m as [|[k x] m IHm]; cbn [flat_map fold_right snd] in *; [constructor|]. inversion IH; subst.
      destruct H as [HX HM]. repeat (apply Forall_app; split) || constructor; auto; try exact I. 
    - constructor; [exact I|]. cbn [tame] in H. induction l as [|x l IHl]; cbn [flat_map fold_right] in *; [constructor|]. inversion IH; subst.
      destruct H as [HX HM]. apply Forall_app; split; auto.
    - apply IH. exact H.
  Qed.
  Lemma answer_defined : forall m w name ps, ma_safe m -> o_end (answer message m g w name ps) <> UB.
  Proof.
    intros m w name ps HM. unfold answer. pose proof (process_defined w name ps) as HP.
    assert (HE : forall (s : ma_state m) w log o e, ends_well (Err e) -> o_end (answer_error (W:=W) message m s w log o name e) <> UB).
    { intros s w1 log o e HW. unfold answer_error.
      destruct e; try (apply fault_defined; [assumption|first [exact HW|unfold in_s32, FRPC_PARSE_ERROR, FRPC_INTERNAL_ERROR; lia]]); discriminate. }
    destruct (process message g w name ps) as [[w' log] [v|e|]]; cbn [snd] in HP; [| |contradiction].
    - pose proof (run_defined m HM (response_calls v) (ma_init m) ltac:(constructor; [exact I|apply feed_calm; exact HP])) as HR.
      destruct (ma_run m (ma_init m) (response_calls v)) as [[o s] f] eqn:ER; cbn [snd] in HR. destruct f as [f|]; [|discriminate].
      destruct (HR f eq_refl) as (e & -> & HF). apply HE. destruct e; try exact I. exfalso. eapply HF. reflexivity.
    - apply HE. exact HP.
  Qed.
End Registry.

Section Serving.
  Context {W : Type}.
  Variable message : exn -> bytes.
  Variable cfg : config.
  Variable ums : in_type -> unmarshaller.
  Variable mars : out_type -> version -> marshaller.
  Variable reason : Z -> bytes.
  Variable cut : bytes -> list bytes.
  Variable added : W -> header.
  Variable g : registry (W:=W).
  Hypothesis UMS : forall k, um_safe (ums k).
  Hypothesis MAS : forall o v, ma_safe (mars o v).
  Hypothesis SAFE : methods_safe g.

  Notation serve_one := (serve_one message cfg ums mars reason cut added g).
  Notation serve_loop := (serve_loop message cfg ums mars reason cut added g).

  Lemma send_defined : forall st w data fl st' o x, s_extra st <> Old_header -> send_answer cfg cut added st w data fl = (st', o, x) ->
    x = Ok tt /\ s_extra st' <> Old_header.
  Proof.
    intros st w data fl st' o x HX H. unfold send_answer in H. destruct (w_sent _).
    - destruct (s_extra st); try congruence; inversion H; subst; split; try reflexivity; discriminate.
    - inversion H; subst. auto.
  Qed.
  Lemma after_defined : forall st s w log wire a k c' r, s_extra st <> Old_header -> o_end a <> UB -> k <> Raised UB ->
    after_answer cfg reason cut added st s w log wire a k = (c', r) -> r <> Raised UB /\ s_extra (c_srv c') <> Old_header /\ c_sock c' = s /\ (forall b, r = Next b -> k = Next b).
  Proof.
    intros st s w log wire a k c' r HX HE HK H. unfold after_answer in H. destruct (send_answer cfg cut added st (o_world a) (o_bytes a) (o_flushed a)) as [[st2 o] x] eqn:ES.
    apply send_defined in ES as [-> HX2]; [|assumption]. destruct (o_end a) as [[]|e|]; [| |congruence].
    - inversion H; subst. repeat split; auto.
    - destruct e; inversion H; subst; repeat split; auto; discriminate.
  Qed.
  Lemma serve_one_any : forall c c' r, s_extra (c_srv c) <> Old_header -> serve_one c = (c', r) ->
    r <> Raised UB /\ s_extra (c_srv c') <> Old_header /\
    (forall b, r = Next b -> (List.length (pending (c_sock c')) < List.length (pending (c_sock c)))%nat).
  Proof.
    intros c c' r HX H. unfold M_Server.serve_one in H. destruct (read_request cfg ums (c_srv c) (c_sock c)) as [[st s] x] eqn:ER.
    apply (read_request_any cfg ums UMS) in ER as (U & X & L & LT & TB).
    assert (HXS : s_extra st <> Old_header) by congruence.
    destruct x as [t|e|]; [| |congruence].
    - specialize (LT (or_introl (ex_intro _ t eq_refl))). specialize (TB t eq_refl). cbv zeta in H. cbn [s_head s_out s_ver] in H. destruct (s_head st).
      + destruct (g_head g) as [f|]; [|inversion H; subst; repeat split; discriminate]. destruct (f (c_world c)) as [w ok].
        destruct ok; inversion H; subst; cbn; repeat split; try discriminate. intros; assumption.
      + specialize (TB eq_refl).
        assert (GO : match bind (tb_data t) as_array with
              | Ok params =>
                  if 3 <? v_major (s_ver st) then (mkConn (mkSrv (s_out st) (s_chunks st) (s_ver st) (s_close st) false This_header) s (c_world c) (c_log c) (c_wire c ++ []), Raised (Err (FrpcError "Not supported protocol version"))) else
                  after_answer cfg reason cut added (mkSrv (s_out st) (s_chunks st) (s_ver st) (s_close st) false This_header) s (c_world c) (c_log c) (c_wire c)
                    (answer message (mars (s_out st) (s_ver st)) g (c_world c) (tb_method t) params) (Next true)
              | Err e => (mkConn (mkSrv (s_out st) (s_chunks st) (s_ver st) (s_close st) false This_header) s (c_world c) (c_log c) (c_wire c ++ []), Raised (Err e))
              | UB => (mkConn (mkSrv (s_out st) (s_chunks st) (s_ver st) (s_close st) false This_header) s (c_world c) (c_log c) (c_wire c ++ []), Raised UB)
              end = (c', r) ->
          r <> Raised UB /\ s_extra (c_srv c') <> Old_header /\ (forall b, r = Next b -> (List.length (pending (c_sock c')) < List.length (pending (c_sock c)))%nat)).
        { clear H. intro H. destruct (tb_data t) as [v|e|]; cbn [bind] in H; [| |congruence].
          - destruct (as_array v) as [params|e|] eqn:EA.
            + destruct (3 <? v_major (s_ver st)); [inversion H; subst; repeat split; discriminate|]. apply after_defined in H as (A & B & C & D); [|discriminate|apply answer_defined; [assumption|apply MAS]|discriminate].
              split; [assumption|]. split; [assumption|]. intros. rewrite C. assumption.
            + inversion H; subst. repeat split; discriminate.
            + destruct v; discriminate.
          - inversion H; subst. repeat split; discriminate. }
        destruct (tb_root t); [inversion H; subst; repeat split; discriminate|apply GO; exact H|apply GO; exact H].
    - destruct e; try (inversion H; subst; cbn; repeat split; try assumption; try discriminate; fail).
      + cbv zeta in H. destruct (after_answer _ _ _ _ _ _ _ _ _ _ _) as [c1 r1] eqn:EA.
        apply after_defined in EA as (A & B & C & D); [|assumption| |discriminate].
        * specialize (LT (or_intror (ex_intro _ _ eq_refl))). destruct r1; inversion H; subst; (split; [first [assumption|discriminate]|]); (split; [assumption|]); intros; try discriminate. assumption.
        * apply fault_defined; [apply MAS|unfold in_s32, FRPC_PARSE_ERROR; lia].
      + inversion H; subst. cbn. split; [destruct (_ =? _); discriminate|]. split; [assumption|]. destruct (_ =? _); discriminate.
  Qed.

  (** Enough rounds: more do not matter, and none is undefined. *)
  Lemma serve_loop_any : forall k1 k2 n c, s_extra (c_srv c) <> Old_header ->
    (List.length (pending (c_sock c)) < k1)%nat -> (List.length (pending (c_sock c)) < k2)%nat ->
    serve_loop k1 n c = serve_loop k2 n c /\ snd (serve_loop k1 n c) <> UB.
  Proof.
    induction k1 as [|k1 IH]; intros k2 n c HX H1 H2; [lia|]. destruct k2 as [|k2]; [lia|]. cbn [M_Server.serve_loop].
    destruct (serve_one c) as [c' r] eqn:E. apply serve_one_any in E as (A & B & C); [|assumption].
    destruct r as [b| |x]; [|split; [reflexivity|discriminate]|split; [reflexivity|cbn; congruence]].
    destruct (s_close (c_srv c') || negb (f_keep cfg) || _); [split; [reflexivity|discriminate]|].
    specialize (C b eq_refl). apply IH; [assumption|lia|lia].
  Qed.
End Serving.
