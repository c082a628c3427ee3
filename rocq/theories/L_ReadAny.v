(** Reading a body given to any unmarshaller: the errors are those of the protocol or of the unmarshaller, which is given a part of what came. *)
From Coq Require Import Lia.
From Verif Require Import Base Value Text M_Marshal M_BinUnmarshal M_TreeBuilder M_Base64 M_Iso M_Url M_Http M_HttpIO S_Http S_Server
  L_Base L_HttpIO L_HttpIO2 L_HttpIO3 L_HttpIO4 L_HttpIO5 L_Server3 L_ServerUrl.

Definition protocol {A} (x : res A) : Prop := match x with Ok _ => True | Err e => exists c, e = ProtocolError c | UB => False end.
Lemma line_protocol : forall check limit opt s s' x, read_line_opt check limit opt s = (s', x) -> protocol x.
Proof.
  intros check limit opt s s' x H. unfold read_line_opt in H.
  destruct (read_line_loop_spec (S (List.length (pending s))) check limit opt true [] s ltac:(lia)) as (p & v & E & _). rewrite E in H. inversion H; subst.
  unfold line_result, err. destruct (find_char 10 (pending s)); [destruct (too_long _ _ _); cbn; eauto|].
  destruct ((0 <? blen (pending s)) && _); [cbn; eauto|]. destruct (fin s); cbn; eauto; [destruct (_ && _)|destruct opt]; cbn; eauto.
Qed.
Lemma header_protocol : forall fuel opt h s s' x, read_header_loop fuel opt h s = (s', x) -> x <> UB -> protocol x.
Proof.
  induction fuel as [|fuel IH]; intros opt h s s' x H N; cbn [read_header_loop] in H; [inversion H; subst; congruence|].
  destruct (read_line_opt false (-1) opt s) as [s1 y] eqn:E. apply line_protocol in E. destruct y as [l|e|]; cbn [sbind] in H; [|inversion H; subst; exact E|contradiction].
  destruct l as [|c l]; [inversion H; subst; exact I|]. destruct (get_header_value (c :: l)) as [[n v]|]; [|inversion H; subst; cbn; unfold err; eauto].
  destruct n; [destruct h; [inversion H; subst; cbn; unfold err; eauto|]|]; eapply IH; eassumption.
Qed.
Lemma read_header_protocol : forall opt h s s' x, read_header opt h s = (s', x) -> protocol x /\ (List.length (pending s') <= List.length (pending s))%nat.
Proof.
  intros opt h s s' x H. unfold read_header in H. destruct (read_header_loop_any (S (List.length (pending s))) opt h s) as (p & v & y & E & U & L); [lia|].
  pose proof E as E2. rewrite H in E. inversion E; subst. split; [eapply header_protocol; eassumption|exact L].
Qed.

Section Sink.
  Context {K : Type}.
  Variable sink : K -> bytes -> K * option fail.
  (** [inv k p]: the unmarshaller, and what is still to be read. *)
  Variable inv : K -> bytes -> Prop.
  Variable okf : fail -> Prop.
  Hypothesis ENDS : forall k p q, inv k p -> ends q p -> inv k q.
  Hypothesis SINK : forall k d p k' f, inv k (d ++ p) -> sink k d = (k', f) -> match f with None => inv k' p | Some f => okf f end.

  Definition fares (r : rd (K:=K)) {A} (x : res A) : Prop :=
    match x with
    | Ok _ => inv (r_sink r) (pending (r_sock r))
    | Err e => (exists c, e = ProtocolError c) \/ okf (Exn e)
    | UB => okf Undef
    end.
  Lemma protocol_fares : forall r A (x : res A), protocol x -> inv (r_sink r) (pending (r_sock r)) -> fares r x.
  Proof. intros r A [a|e|] P I; [exact I|left; exact P|contradiction]. Qed.
  Lemma err_fares : forall r A c, fares r (@err A c).
  Proof. intros. left. exists c. reflexivity. Qed.

  Lemma write_fares : forall d (r r' : rd (K:=K)) x, inv (r_sink r) (d ++ pending (r_sock r)) -> sink_write sink d r = (r', x) -> fares r' x /\ r_sock r' = r_sock r.
  Proof.
    intros d r r' x I H. pose proof (sink_write_sock sink _ _ _ _ H) as HS. split; [|exact HS]. unfold sink_write in H. destruct (sink (r_sink r) d) as [k f] eqn:E.
    pose proof (SINK _ _ _ _ _ I E) as X. destruct f as [[e|]|]; inversion H; subst; cbn; auto.
  Qed.
  Lemma block_loop_fares : forall fuel n (r r' : rd (K:=K)) x, (List.length (pending (r_sock r)) < fuel)%nat -> n < 0 \/ 1 <= n -> inv (r_sink r) (pending (r_sock r)) ->
    read_block_loop sink (-1) fuel n r = (r', x) -> fares r' x.
  Proof.
    induction fuel as [|fuel IH]; intros n r r' x HF HN HI H; [lia|]. cbn [read_block_loop] in H.
    destruct (pending (r_sock r)) as [|x0 p0] eqn:EP.
    - inversion H; subst. destruct (fin (r_sock r')); try apply err_fares. destruct (n <? 0); [|apply err_fares]. cbn. rewrite EP. exact HI.
    - assert (HNE : pending (r_sock r) <> []) by congruence. rewrite <- EP in *. clear x0 p0 EP.
      set (want := if (n <? 0) || (HTTP_BUFF_LENGTH <? n) then HTTP_BUFF_LENGTH else n) in H.
      assert (HW : 1 <= want). { unfold want, HTTP_BUFF_LENGTH in *. destruct (Z.ltb_spec n 0); destruct (Z.ltb_spec 65536 n); cbn [orb]; lia. }
      destruct (seen_spec want (r_sock r) HNE HW) as (q & HQ & HD & HDL & HCO).
      assert (HDN : 0 <= n -> blen (seen want (r_sock r)) <= n).
      { intro. unfold want in *. replace (n <? 0) with false in HDL by (symmetry; apply Z.ltb_ge; lia). cbn [orb] in HDL |- *.
        replace (n <? 0) with false by (symmetry; apply Z.ltb_ge; lia). cbn [orb].
        destruct (Z.ltb_spec HTTP_BUFF_LENGTH n); lia. }
      set (d := seen want (r_sock r)) in *. clearbody d. rewrite HCO in H. cbn [Z.leb andb] in H.
      assert (HLQ : (List.length q < List.length (pending (r_sock r)))%nat).
      { rewrite HQ, app_length. destruct d; [congruence|]. cbn. lia. }
      destruct (sink_write sink d _) as [r2 y] eqn:EW. apply write_fares in EW as (E1 & E3); [|cbn [r_sink r_sock pending]; rewrite <- HQ; exact HI]. cbn [r_sock] in E3.
      destruct y as [[]|e|]; cbn [sbind] in H; [|inversion H; subst; exact E1|inversion H; subst; exact E1].
      assert (HL2 : (List.length (pending (r_sock r2)) < List.length (pending (r_sock r)))%nat) by (rewrite E3; cbn; lia).
      destruct (Z.ltb_spec n 0).
      + apply IH in H; [exact H|lia|auto|exact E1].
      + destruct (Z.eqb_spec (n - blen d) 0).
        * inversion H; subst. exact E1.
        * specialize (HDN ltac:(lia)). pose proof (blen_pos d HD). apply IH in H; [exact H|lia|lia|exact E1].
  Qed.
  Lemma block_fares : forall n (r r' : rd (K:=K)) x, inv (r_sink r) (pending (r_sock r)) -> read_block sink (-1) n r = (r', x) -> fares r' x.
  Proof.
    intros n r r' x HI H. unfold read_block in H. destruct (Z.eqb_spec n 0); [inversion H; subst; exact HI|].
    cbn [Z.leb andb] in H. refine (block_loop_fares _ _ _ _ _ _ _ HI H); [apply Nat.lt_succ_diag_r|lia].
  Qed.
  Lemma chunks_fares : forall fuel h (r r' : rd (K:=K)) x, (List.length (pending (r_sock r)) < fuel)%nat -> inv (r_sink r) (pending (r_sock r)) ->
    read_chunks sink (-1) fuel h r = (r', x) -> fares r' x.
  Proof.
    induction fuel as [|fuel IH]; intros h r r' x HF HI H; [lia|]. cbn [read_chunks] in H. unfold read_chunk_size in H.
    destruct (read_line_any false (-1) false (r_sock r)) as (p & v & y & E & HU & HL & _ & HX). pose proof (line_protocol _ _ _ _ _ _ E) as PR. pose proof (line_opt_ends _ _ _ _ _ _ E) as EN. cbn [pending] in EN.
    rewrite E in H. cbn [sbind] in H. clear E.
    destruct y as [l|e|]; [|cbn in H; inversion H; subst; left; exact PR|congruence].
    specialize (HX l eq_refl eq_refl).
    destruct (read_hex_long l) as [z|]; [|cbn in H; inversion H; subst; apply err_fares].
    destruct (z <? 0); [cbn in H; inversion H; subst; apply err_fares|].
    cbn [with_sock fst snd sbind] in H. unfold with_sock in H. cbn [fst snd r_sock r_sink r_written] in H. destruct (z =? 0).
    - destruct (read_header true h _) as [s1 x1] eqn:EH. pose proof (header_ends _ _ _ _ _ _ EH) as E1. cbn [pending] in E1. apply read_header_protocol in EH as [P1 _]. inversion H; subst.
      apply protocol_fares; [exact P1|]. cbn [r_sink r_sock]. eapply ENDS; [exact HI|]. eapply ends_trans; eassumption.
    - cbn [Z.leb andb] in H. destruct (read_block sink (-1) z _) as [r1 x1] eqn:EB. pose proof EB as EC.
      apply block_fares in EB; [|cbn [r_sink r_sock pending]; eapply ENDS; eassumption].
      apply (block_carry sink (-1) (fun _ p _ q => ends q p)) in EC; [|intros; apply ends_refl|intros; eapply ends_trans; eassumption|auto|intros k d p0 k' f _; exists d; reflexivity].
      unfold carry in EC. cbn [r_sock r_sink pending] in EC.
      assert (L1 : (List.length (pending (r_sock r1)) <= List.length p)%nat) by (destruct EC as [a0 ->]; rewrite app_length; lia).
      destruct x1 as [[]|e1|]; cbn [sbind] in H; [|inversion H; subst; exact EB|inversion H; subst; exact EB].
      destruct (read_line_any false (-1) false (r_sock r1)) as (p2 & v2 & x2 & E2 & HU2 & HL2 & _). pose proof (line_protocol _ _ _ _ _ _ E2) as P2. pose proof (line_opt_ends _ _ _ _ _ _ E2) as N2. cbn [pending] in N2.
      rewrite E2 in H. cbn [fst snd sbind] in H.
      destruct x2 as [l2|e2|]; [| |congruence].
      2:{ cbn in H. inversion H; subst. left. exact P2. }
      cbn [sbind] in H. destruct l2; [|inversion H; subst; apply err_fares].
      apply IH in H; [exact H|cbn; lia|]. cbn [r_sink r_sock pending]. eapply ENDS; [exact EB|exact N2].
  Qed.
  Lemma content_fares : forall h request (r r' : rd (K:=K)) x, inv (r_sink r) (pending (r_sock r)) -> read_content sink (-1) h request r = (r', x) -> fares r' x.
  Proof.
    intros h request r r' x HI H. unfold read_content in H.
    assert (BL : forall n, sbind (read_block sink (-1) n r) (fun r _ => (r, Ok h)) = (r', x) -> fares r' x).
    { intros n HB. destruct (read_block sink (-1) n r) as [r1 x1] eqn:EB. apply block_fares in EB; [|exact HI].
      destruct x1 as [[]|e1|]; cbn in HB; inversion HB; subst; exact EB. }
    destruct (header_get (str "Content-Length") 0 h) as [v|].
    - destruct (read_dec_long v) as [n|]; [|inversion H; subst; apply err_fares].
      destruct (n <? 0); [inversion H; subst; apply err_fares|]. change (0 <=? -1) with false in H. cbn [andb] in H. exact (BL n H).
    - destruct (header_get (str "Transfer-Encoding") 0 h) as [v|].
      + destruct (bytes_eqb _ _); [|inversion H; subst; apply err_fares].
        unfold read_chunked in H. refine (chunks_fares _ _ _ _ _ _ HI H). apply Nat.lt_succ_diag_r.
      + destruct request; [inversion H; subst; exact HI|]. exact (BL (-1) H).
  Qed.
End Sink.
