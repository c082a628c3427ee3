(** Requests that are refused: C71. *)
From Coq Require Import Lia Arith.
From Verif Require Import Base Value Text M_Marshal M_BinUnmarshal M_TreeBuilder M_Base64 M_Json M_Xml M_Url M_Http M_HttpIO M_HttpWriter M_Registry M_Server
  S_Value S_Http S_Registry S_Server S_Refuse L_Base L_Text L_UrlText L_Http L_HttpIO L_HttpIO2 L_HttpIO3 L_HttpIO4 L_HttpIO5 L_Registry L_Server L_Server2 L_Server4 P_HttpIO.

Section Serving.
  Context {W : Type}.
  Variable message : exn -> bytes.
  Variable cfg : config.
  Variable ums : in_type -> unmarshaller.
  Variable mars : out_type -> version -> marshaller.
  Variable reason : Z -> bytes.
  Variable cut : bytes -> list bytes.
  Variable added : W -> header.
  Variable g : registry (W:=W).
  Hypothesis CUT : writes_well cut.
  Notation serve_one := (serve_one message cfg ums mars reason cut added g).
  Notation serve_loop := (serve_loop message cfg ums mars reason cut added g).

  Lemma serve_loop_then : forall n w qs w' outs m, so_far message cfg ums mars added g n w qs w' outs m ->
    f_max cfg < 2 ^ 32 -> n = 0 \/ 0 <= n < f_max cfg -> Forall well_formed qs -> Forall sendable outs ->
    forall texts more, Forall2 request_text qs texts ->
    forall fuel st sees ending log out, (List.length (concat texts ++ more) < fuel)%nat ->
    exists fuel' st' sees' log' replies,
      serve_loop fuel n (mkConn st (mkSock (concat texts ++ more) sees ending) w log out)
      = serve_loop fuel' m (mkConn st' (mkSock more sees' ending) w' log' (out ++ concat replies)) /\
      Forall2 (answer_text cfg) outs replies /\ (List.length more < fuel')%nat /\ (s_extra st = No_header -> s_extra st' = No_header).
  Proof.
    intros n w qs w' outs m HC HM. induction HC as [n w|n w q rest w' o body w2 outs m HA HG HC IH];
      intros HN HQ HS texts more HT fuel st sees ending log out HF.
    - inversion HT; subst. cbn [concat app] in HF |- *. exists fuel, st, sees, log, []. cbn. rewrite app_nil_r. split; [reflexivity|]. split; [constructor|]. split; [exact HF|auto].
    - inversion HT as [|? t ? texts' (wire & HFR & ET) HT']; subst. inversion HQ; subst. inversion HS; subst.
      destruct fuel as [|fuel]; [lia|]. cbn [M_Server.serve_loop concat]. rewrite <- !app_assoc.
      destruct (serve_one_good message cfg ums mars reason cut added g CUT st q w w' o body wire (concat texts' ++ more) sees ending log out)
        as (st' & sees' & log' & text & E & HR & HCL & HX); try assumption.
      rewrite E. cbn [c_srv]. destruct HG as (HG1 & HG2 & HG3). apply HCL in HG2. rewrite HG2, HG1. cbn [orb negb].
      rewrite u32_id by (unfold in_u32; lia). replace (f_max cfg <=? n + 1) with false by (symmetry; apply Z.leb_gt; lia).
      destruct (IH ltac:(lia) ltac:(assumption) ltac:(assumption) texts' more HT' fuel st' sees' ending log' (out ++ text)) as (f' & st2 & s2 & l2 & replies & E2 & F2 & L2 & X2).
      + rewrite concat_cons, !app_length in HF. rewrite app_length. unfold request_head in HF. rewrite !app_length in HF. cbn in HF. unfold bytes in *. lia.
      + exists f', st2, s2, l2, (text :: replies). split; [rewrite E2; cbn [concat]; rewrite app_assoc; reflexivity|]. split; [constructor; assumption|]. split; [exact L2|]. intros _. exact (X2 HX).
  Qed.

  Definition head_says (w : W) : option bool := match g_head g with None => None | Some f => Some (snd (f w)) end.
  Definition head_world (w : W) : W := match g_head g with None => w | Some f => fst (f w) end.

  Lemma short_line : forall a rest sees ending, one_line a -> a <> [] -> last a x20 <> x0d ->
    exists sees', read_line_opt true (-1) true (mkSock ((a ++ crlf) ++ rest) sees ending) = (mkSock rest sees' ending, Ok a).
  Proof.
    intros a rest sees ending O N L. replace ((a ++ crlf) ++ rest) with ((a ++ [x0d]) ++ x0a :: rest) by (unfold crlf; rewrite <- !app_assoc; reflexivity).
    apply C35_line; [| |right; left; lia].
    - intro H. apply in_app_or in H as [H|H]; [exact (O H)|cbn in H; intuition discriminate].
    - exists 1%nat. split; [reflexivity|exact L].
  Qed.
  Lemma word_line : forall w, word w -> one_line w.
  Proof. intros w [_ H] HI. apply (H _ HI). right. cbn. lia. Qed.
  Lemma word_last : forall w, word w -> last w x20 <> x0d.
  Proof.
    intros w [N H] E. destruct w as [|x w] using rev_ind; [now elim N|]. rewrite last_last in E. subst x. apply (H x0d); [apply in_or_app; right; now left|]. right. cbn. lia.
  Qed.
  Lemma split_one : forall a, word a -> split_by_space a 3 = [a].
  Proof.
    intros a HA. apply word_spaces in HA as [HA1 HA2]. unfold split_by_space. rewrite <- (app_nil_r a) at 1. rewrite split_word by assumption. cbn. destruct a; [congruence|reflexivity].
  Qed.
  Lemma split_two : forall a b, word a -> word b -> split_by_space (a ++ [x20] ++ b) 3 = [a; b].
  Proof.
    intros a b HA HB. apply word_spaces in HA as [HA1 HA2]. apply word_spaces in HB as [HB1 HB2].
    unfold split_by_space. rewrite split_word by assumption. change ([] ++ a) with a. change ([x20] ++ b) with (x20 :: b).
    cbn [split_words]. change (is_space x20) with true. cbv iota. destruct a as [|a0 a]; [congruence|].
    change (0 + zlen [a0 :: a] =? 3 - 1) with false. cbv iota. cbn [app]. f_equal. rewrite <- (app_nil_r b) at 1. rewrite split_word by assumption. cbn. destruct b; [congruence|reflexivity].
  Qed.
  Lemma two_words_line : forall a b, word a -> word b -> one_line (a ++ [x20] ++ b) /\ a ++ [x20] ++ b <> [] /\ last (a ++ [x20] ++ b) x20 <> x0d.
  Proof.
    intros a b A B. split; [|split].
    - intro H. apply in_app_or in H as [H|H]; [exact (word_line _ A H)|]. apply in_app_or in H as [H|H]; [cbn in H; intuition discriminate|exact (word_line _ B H)].
    - destruct A as [A _]. destruct a; [congruence|discriminate].
    - pose proof (word_last _ B) as L. destruct b as [|x b] using rev_ind; [destruct B as [B _]; congruence|]. rewrite last_last in L. rewrite !app_assoc, last_last. exact L.
  Qed.
  Lemma eqb_neq : forall a b, a <> b -> bytes_eqb a b = false.
  Proof. intros a b N. destruct (bytes_eqb a b) eqn:E; [|reflexivity]. elim N. apply bytes_eqb_eq. exact E. Qed.

  Lemma word_head : word (str "HEAD").
  Proof. split; [discriminate|]; intros c H HX; apply space_spec in HX; cbn in H; decompose [or] H; subst; try discriminate; contradiction. Qed.

  (** What happens to a refused request. *)
  Lemma serve_one_refused : forall w text code, refused ums (head_says w) text code ->
    forall st rest sees ending log out, exists st' sees',
    exists w', serve_one (mkConn st (mkSock (text ++ rest) sees ending) w log out)
      = (mkConn st' (mkSock rest sees' ending) w' log (out ++ error_text cfg reason code), Stop) /\ (w' = w \/ (w' = head_world w /\ code = 503)).
  Proof.
    intros w text code H st rest sees ending log out.
    destruct H as [a A|a b A B|a b v A B V1 V2 V3 V4 V5|a b http11 fs A B NP NH FS|b http11 fs B FS HW|q k wire (HP & HF & HS) FR RT DN];
      unfold M_Server.serve_one, read_request; cbn [c_srv c_sock c_world c_log c_wire].
    - destruct (short_line a rest sees ending (word_line a A) (proj1 A) (word_last a A)) as (s1 & E). rewrite E, (split_one a A).
      destruct a as [|a0 a]; [destruct A; congruence|]. do 3 eexists. split; [reflexivity|now left].
    - destruct (two_words_line a b A B) as (L1 & L2 & L3). destruct (short_line (a ++ [x20] ++ b) rest sees ending L1 L2 L3) as (s1 & E).
      replace ((a ++ [x20] ++ b ++ crlf) ++ rest) with (((a ++ [x20] ++ b) ++ crlf) ++ rest) by (rewrite <- !app_assoc; reflexivity). rewrite E, (split_two a b A B).
      destruct (a ++ [x20] ++ b) as [|a0 r]; [congruence|]. do 3 eexists. split; [reflexivity|now left].
    - destruct (read_first_line true true a b v rest sees ending A B V1 V2 V3) as (s1 & E). rewrite E, (split_three a b v A B V2), (eqb_neq _ _ V4), (eqb_neq _ _ V5).
      destruct (a ++ [x20] ++ b ++ [x20] ++ v) as [|a0 r] eqn:X; [destruct a; [destruct A; congruence|discriminate]|]. cbn [orb negb]. do 3 eexists. split; [reflexivity|now left].
    - set (q := mkReq b http11 fs []). destruct (version_ok q) as (V1 & V2 & V3 & V4 & V5). unfold http_version in *. cbn [q_http11 q] in V1, V2, V3, V4, V5.
      destruct (read_first_line true true a b _ (flat_map field_text fs ++ crlf ++ rest) sees ending A B V1 V2 V3) as (s1 & E).
      replace ((a ++ [x20] ++ b ++ [x20] ++ (if http11 then str "HTTP/1.1" else str "HTTP/1.0") ++ crlf ++ flat_map field_text fs ++ crlf) ++ rest)
        with ((a ++ [x20] ++ b ++ [x20] ++ (if http11 then str "HTTP/1.1" else str "HTTP/1.0") ++ crlf) ++ flat_map field_text fs ++ crlf ++ rest) by (rewrite <- !app_assoc; reflexivity).
      unfold bytes in *. rewrite E, (split_three a b _ A B V2), V4. cbn [negb].
      destruct (read_head fs rest s1 ending FS) as (s2 & E2). unfold bytes in *. rewrite E2, (eqb_neq _ _ NP), (eqb_neq _ _ NH). cbn [negb].
      destruct (a ++ [x20] ++ b ++ [x20] ++ (if http11 then str "HTTP/1.1" else str "HTTP/1.0")) as [|a0 r] eqn:X; [destruct a; [destruct A; congruence|discriminate]|].
      do 3 eexists. split; [reflexivity|now left].
    - set (q := mkReq b http11 fs []). destruct (version_ok q) as (V1 & V2 & V3 & V4 & V5). unfold http_version in *. cbn [q_http11 q] in V1, V2, V3, V4, V5.
      destruct (read_first_line true true (str "HEAD") b _ (flat_map field_text fs ++ crlf ++ rest) sees ending word_head B V1 V2 V3) as (s1 & E).
      replace ((str "HEAD " ++ b ++ [x20] ++ (if http11 then str "HTTP/1.1" else str "HTTP/1.0") ++ crlf ++ flat_map field_text fs ++ crlf) ++ rest)
        with ((str "HEAD" ++ [x20] ++ b ++ [x20] ++ (if http11 then str "HTTP/1.1" else str "HTTP/1.0") ++ crlf) ++ flat_map field_text fs ++ crlf ++ rest)
        by (change (str "HEAD ") with (str "HEAD" ++ [x20]); rewrite <- !app_assoc; reflexivity).
      unfold bytes in *. rewrite E, (split_three (str "HEAD") b _ word_head B V2), V4. cbn [negb].
      destruct (read_head fs rest s1 ending FS) as (s2 & E2). unfold bytes in *. rewrite E2. change (bytes_eqb (str "HEAD") (str "POST")) with false. change (bytes_eqb (str "HEAD") (str "HEAD")) with true. cbn [negb].
      change (str "HEAD" ++ [x20] ++ b ++ [x20] ++ (if http11 then str "HTTP/1.1" else str "HTTP/1.0")) with (x48 :: str "EAD" ++ [x20] ++ b ++ [x20] ++ (if http11 then str "HTTP/1.1" else str "HTTP/1.0")). cbv iota.
      cbn [s_head]. unfold head_says, head_world in *. destruct (g_head g) as [f|].
      + destruct (f w) as (w1, ok) eqn:FE. cbn [snd fst] in *. destruct ok; [now elim HW|]. do 3 eexists. split; [reflexivity|right; split; reflexivity].
      + do 3 eexists. split; [reflexivity|now left].
    - destruct (version_ok q) as (V1 & V2 & V3 & V4 & V5).
      destruct (read_first_line true true (str "POST") (q_path q) (http_version q) (flat_map field_text (q_fields q) ++ crlf ++ wire ++ rest) sees ending
                  word_post HP V1 V2 V3) as (s1 & E1).
      replace ((request_head q ++ wire) ++ rest) with
        ((str "POST" ++ [x20] ++ q_path q ++ [x20] ++ http_version q ++ crlf) ++ flat_map field_text (q_fields q) ++ crlf ++ wire ++ rest)
        by (unfold request_head; rewrite <- !app_assoc; reflexivity).
      rewrite E1. change (str "POST" ++ [x20] ++ q_path q ++ [x20] ++ http_version q) with (x50 :: str "OST" ++ [x20] ++ q_path q ++ [x20] ++ http_version q).
      cbv iota. change (x50 :: str "OST" ++ [x20] ++ q_path q ++ [x20] ++ http_version q) with (str "POST" ++ [x20] ++ q_path q ++ [x20] ++ http_version q).
      rewrite (split_three _ _ _ word_post HP V2), V4. cbn [negb].
      destruct (read_head (q_fields q) (wire ++ rest) s1 ending HF) as (s2 & E2). rewrite E2.
      change (bytes_eqb (str "POST") (str "POST")) with true. cbn [negb].
      destruct (choose_out cfg _) as [o chunks]. rewrite (choose_in_spec _ _ RT).
      destruct (read_framed _ (um_take (ums k)) (um_init (ums k)) true (q_fields q) (q_body q) wire rest s2 ending FR HS) as (ps & EP & HM).
      rewrite hand_over_um in HM. destruct (DN ps EP) as (u1 & u2 & HA & HFI & HV). rewrite HA in HM.
      destruct HM as (s3 & n & ->). cbn [r_sink r_sock]. rewrite HFI. cbn [s_head]. rewrite HV. do 3 eexists. split; [reflexivity|now left].
  Qed.

  (** A HEAD request that the HEAD method accepts. *)
  Lemma serve_one_head : forall w b http11 fs, word b -> Forall field_ok fs -> head_says w = Some true ->
    forall st rest sees ending log out, exists st' sees' o chunks,
    serve_one (mkConn st (mkSock ((str "HEAD " ++ b ++ [x20] ++ (if http11 : bool then str "HTTP/1.1" else str "HTTP/1.0") ++ crlf ++ flat_map field_text fs ++ crlf) ++ rest) sees ending) w log out)
      = (mkConn st' (mkSock rest sees' ending) (head_world w) log (out ++ server_head o (f_binary cfg) (f_keep cfg) chunks (added (head_world w)) 0), Next true) /\ s_close st' = true.
  Proof.
    intros w b http11 fs B FS HW st rest sees ending log out. unfold M_Server.serve_one, read_request; cbn [c_srv c_sock c_world c_log c_wire].
    set (q := mkReq b http11 fs []). destruct (version_ok q) as (V1 & V2 & V3 & V4 & V5). unfold http_version in *. cbn [q_http11 q] in V1, V2, V3, V4, V5.
    destruct (read_first_line true true (str "HEAD") b _ (flat_map field_text fs ++ crlf ++ rest) sees ending word_head B V1 V2 V3) as (s1 & E).
    replace ((str "HEAD " ++ b ++ [x20] ++ (if http11 then str "HTTP/1.1" else str "HTTP/1.0") ++ crlf ++ flat_map field_text fs ++ crlf) ++ rest)
      with ((str "HEAD" ++ [x20] ++ b ++ [x20] ++ (if http11 then str "HTTP/1.1" else str "HTTP/1.0") ++ crlf) ++ flat_map field_text fs ++ crlf ++ rest)
      by (change (str "HEAD ") with (str "HEAD" ++ [x20]); rewrite <- !app_assoc; reflexivity).
    unfold bytes in *. rewrite E, (split_three (str "HEAD") b _ word_head B V2), V4. cbn [negb].
    destruct (read_head fs rest s1 ending FS) as (s2 & E2). unfold bytes in *. rewrite E2. change (bytes_eqb (str "HEAD") (str "POST")) with false. change (bytes_eqb (str "HEAD") (str "HEAD")) with true. cbn [negb].
    change (str "HEAD" ++ [x20] ++ b ++ [x20] ++ (if http11 then str "HTTP/1.1" else str "HTTP/1.0")) with (x48 :: str "EAD" ++ [x20] ++ b ++ [x20] ++ (if http11 then str "HTTP/1.1" else str "HTTP/1.0")). cbv iota.
    cbn [s_head]. unfold head_says, head_world in *. destruct (g_head g) as [f|]; [|discriminate].
    destruct (f w) as (w1, ok) eqn:FE. cbn [snd fst] in *. inversion HW; subst ok. do 4 eexists. split; [reflexivity|reflexivity].
  Qed.
End Serving.

(** ** C71 *)
(** After any number of requests answered on a connection, one that cannot be served - no request line of three words,
    another version or method, a HEAD without or against the HEAD method, a body without a call - is answered by one
    response with the status for it; nothing is executed for it (but the HEAD method) and the connection ends: what
    follows is not read. *)
Theorem C71_refused : forall W message cfg ums mars reason cut (added : W -> header) g w qs w' outs m text code rest,
  so_far message cfg ums mars added g 0 w qs w' outs m ->
  writes_well cut -> f_max cfg < 2 ^ 32 -> Forall well_formed qs -> Forall sendable outs ->
  refused ums (head_says g w') text code -> 
  forall texts st sees ending, Forall2 request_text qs texts ->
  exists c replies refusal,
    serve message cfg ums mars reason cut added g st (mkSock (concat texts ++ text ++ rest) sees ending) w = (c, Ok tt) /\
    c_wire c = concat replies ++ refusal /\ Forall2 (fun a t => let '(v, o, extra, body) := a in response_text (f_binary cfg) v o (f_keep cfg) extra body t) outs replies /\
    refusal_text code refusal /\ pending (c_sock c) = rest /\ (c_world c = w' \/ (c_world c = head_world g w' /\ code = 503)).
Proof.
  intros W message cfg ums mars reason cut added g w qs w' outs m text code rest SF HW HM HQ HS HR texts st sees ending HT. unfold serve. cbn [pending].
  set (st0 := mkSrv _ _ _ _ _ _). clearbody st0.
  destruct (serve_loop_then message cfg ums mars reason cut added g HW 0 w qs w' outs m SF HM (or_introl eq_refl) HQ HS texts (text ++ rest) HT (S (List.length (concat texts ++ text ++ rest))) st0 sees ending [] [] (le_n _))
    as (fuel' & st' & sees' & log' & replies & E & F & L & _). rewrite E.
  destruct fuel' as [|fuel']; [lia|]. cbn [serve_loop].
  destruct (serve_one_refused message cfg ums mars reason cut added g w' text code HR st' rest sees' ending log' ([] ++ concat replies)) as (st2 & sees2 & w2 & E2 & HW2). rewrite E2.
  eexists _, replies, (error_text cfg reason code). split; [reflexivity|]. split; [reflexivity|]. split; [exact F|]. split; [|split; [reflexivity|exact HW2]].
  assert (CN : 0 <= code) by (inversion HR; lia || (destruct (head_says g w'); lia)).
  exists (dec code), (reason code), [(str "Accept", str "text/xml" ++ (if f_binary cfg then str ", application/x-frpc" else []) ++ str ", application/x-www-form-urlencoded"); (str "Server", str "Fast-RPC  Server Linux")].
  split; [apply dec_is_number; exact CN|]. split.
  - constructor; [apply field_okb_ok; destruct (f_binary cfg); reflexivity|]. constructor; [apply field_okb_ok; reflexivity|constructor].
  - unfold error_text, header_text, field_text. cbn [flat_map fst snd]. rewrite <- !app_assoc. destruct (f_binary cfg); reflexivity.
Qed.
Print Assumptions C71_refused.

(** A HEAD request that the application's HEAD method accepts is answered by one response head with status 200 and no
    body - it carries the fields the application adds -, and the connection ends. *)
Theorem C71_head : forall W message cfg ums mars reason cut (added : W -> header) g w qs w' outs m b http11 fields rest,
  so_far message cfg ums mars added g 0 w qs w' outs m ->
  writes_well cut -> f_max cfg < 2 ^ 32 -> Forall well_formed qs -> Forall sendable outs ->
  word b -> Forall field_ok fields -> head_says g w' = Some true -> Forall field_ok (added (head_world g w')) ->
  forall texts st sees ending, Forall2 request_text qs texts ->
  exists c replies own,
    serve message cfg ums mars reason cut added g st
      (mkSock (concat texts ++ (str "HEAD " ++ b ++ [x20] ++ (if http11 : bool then str "HTTP/1.1" else str "HTTP/1.0") ++ crlf ++ flat_map field_text fields ++ crlf) ++ rest) sees ending) w = (c, Ok tt) /\
    c_wire c = concat replies ++ str "HTTP/1.1 200 OK" ++ crlf ++ flat_map field_text (own ++ added (head_world g w')) ++ crlf /\
    Forall2 (fun a t => let '(v, o, extra, body) := a in response_text (f_binary cfg) v o (f_keep cfg) extra body t) outs replies /\
    Forall field_ok (own ++ added (head_world g w')) /\ (forall n v, In (n, v) own -> same_name n (str "Content-Length") -> v = str "0") /\ pending (c_sock c) = rest /\ c_world c = head_world g w'.
Proof.
  intros W message cfg ums mars reason cut added g w qs w' outs m b http11 fields rest SF HW HM HQ HS HB HF HH HA texts st sees ending HT. unfold serve. cbn [pending].
  set (text := str "HEAD " ++ b ++ [x20] ++ (if http11 then str "HTTP/1.1" else str "HTTP/1.0") ++ crlf ++ flat_map field_text fields ++ crlf).
  set (st0 := mkSrv _ _ _ _ _ _). clearbody st0.
  destruct (serve_loop_then message cfg ums mars reason cut added g HW 0 w qs w' outs m SF HM (or_introl eq_refl) HQ HS texts (text ++ rest) HT (S (List.length (concat texts ++ text ++ rest))) st0 sees ending [] [] (le_n _))
    as (fuel' & st' & sees' & log' & replies & E & F & L & _). rewrite E.
  destruct fuel' as [|fuel']; [lia|]. cbn [serve_loop].
  destruct (serve_one_head message cfg ums mars reason cut added g w' b http11 fields HB HF HH st' rest sees' ending log' ([] ++ concat replies)) as (st2 & sees2 & o & chunks & E2 & HC). fold text in E2. rewrite E2.
  cbn [c_srv]. rewrite HC. cbn [orb].
  pose proof (server_fields_ok o (f_binary cfg) (f_keep cfg) chunks (added (head_world g w')) 0 (Z.le_refl _) HA) as FO.
  eexists _, replies, _. split; [reflexivity|]. cbn [c_wire c_sock c_world pending]. split; [|split; [exact F|split; [exact FO|split; [|split; reflexivity]]]].
  - reflexivity.
  - intros n v HI HN. cbn [In] in HI. unfold same_name in HN. decompose [or] HI; try contradiction;
      match goal with HE : _ = (n, v) |- _ => destruct chunks; inversion HE; subst; first [reflexivity|vm_compute in HN; discriminate HN] end.
Qed.
Print Assumptions C71_head.
From Verif Require Import L_Server3 L_Server5 P_Registry P_Server.

(** Hypotheses met: a call on a connection that stays open, then a request of another method, one without version, a
    HEAD request for an application without HEAD method and one with; and what the server does with the first. *)
Example C71_sample :
  so_far msg_of ten sample_ums (writers no_double) (fun _ => []) app 0 0 [q1] 1 [(true, Out_binary, [], echo_answer)] 1 /\
  Forall well_formed [q1] /\ Forall sendable [(true, Out_binary, [], echo_answer)] /\ Forall2 request_text [q1] [request_head q1 ++ echo_body] /\
  refused sample_ums (head_says app 1) (str "GET /RPC2 HTTP/1.1" ++ crlf ++ str "Host: h" ++ crlf ++ crlf) 405 /\
  refused sample_ums (head_says app 1) (str "GET /RPC2" ++ crlf) 400 /\
  refused sample_ums (head_says app 1) (str "HEAD / HTTP/1.0" ++ crlf ++ crlf) 405 /\
  head_says (mkReg (g_methods app) (g_default app) (Some (fun w => (w + 10, w =? 1)))) 1 = Some true /\
  let '(c, x) := sample_serve srv_init (mkSock (request_head q1 ++ echo_body ++ str "GET /RPC2 HTTP/1.1" ++ crlf ++ str "Host: h" ++ crlf ++ crlf ++ str "more") [7; 1; 30] TimedOut) 0 in
  x = Ok tt /\ c_world c = 1 /\ pending (c_sock c) = str "more".
Proof.
  assert (WD : forall w, negb (blen w =? 0) && forallb (fun c => negb (is_space c)) w = true -> word w).
  { intros w H. apply andb_true_iff in H as [H1 H2]. split; [destruct w; [discriminate|discriminate]|]. intros c HC HS. apply space_spec in HS.
    rewrite forallb_forall in H2. specialize (H2 c HC). rewrite HS in H2. discriminate. }
  split; [|split; [|split; [|split; [|split; [|split; [|split; [|split]]]]]]].
  - eapply far_more with (w' := 1) (added := fun _ : Z => []); [apply echo_answers; auto| |constructor].
    split; [reflexivity|]. split; [apply choose_close_spec; vm_compute; reflexivity|reflexivity].
  - constructor; [apply echo_well_formed; auto|constructor].
  - constructor; [|constructor]. split; [discriminate|]. split; [vm_compute; reflexivity|]. split; constructor.
  - constructor; [apply echo_text; auto|constructor].
  - apply (refused_method _ _ (str "GET") (str "/RPC2") true [(str "Host", str "h")]); try discriminate; try (apply WD; reflexivity). constructor; [apply field_okb_ok; reflexivity|constructor].
  - apply (refused_two_words _ _ (str "GET") (str "/RPC2")); apply WD; reflexivity.
  - apply (refused_head sample_ums None (str "/") false []); [apply WD; reflexivity|constructor|discriminate].
  - reflexivity.
  - vm_compute. auto.
Qed.
