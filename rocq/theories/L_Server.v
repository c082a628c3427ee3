(** Lemmas about reading requests and serving connections. *)
From Coq Require Import Lia.
From Verif Require Import Base Value Text M_Marshal M_BinUnmarshal M_TreeBuilder M_Base64 M_Iso M_Url M_Http M_HttpIO M_HttpWriter M_Registry M_Server
  S_Http S_Registry S_Server L_Base L_Http L_HttpIO L_HttpIO2 L_HttpIO3 L_HttpIO4 L_HttpIO5 L_HttpWriter L_Registry P_HttpIO P_HttpWriter P_Registry.

(** * Texts *)
Lemma starts_spec : forall p s, starts p s = true <-> exists b, s = p ++ b.
Proof.
  induction p as [|a p IH]; intro s; cbn [starts]; [split; [intros _; exists s; reflexivity|reflexivity]|].
  destruct s as [|c s]; [split; [discriminate|intros (b & H); discriminate]|].
  rewrite andb_true_iff, IH. split.
  - intros [H (b & ->)]. apply byte_eqb_eq in H. subst c. exists b. reflexivity.
  - intros (b & H). inversion H; subst. split; [apply byte_eqb_eq; reflexivity|exists b; reflexivity].
Qed.
Lemma contains_spec : forall p s, contains p s = true <-> occurs p s.
Proof.
  intros p. induction s as [|c s IH]; cbn [contains]; rewrite orb_true_iff, starts_spec.
  - split; [intros [(b & H)|H]; [exists [], b; exact H|discriminate]|]. intros (a & b & H). left. destruct a as [|x a]; [exists b; exact H|discriminate].
  - rewrite IH. split.
    + intros [(b & H)|(a & b & ->)]; [exists [], b; exact H|]. exists (c :: a), b. reflexivity.
    + intros (a & b & H). destruct a as [|x a]; [left; exists b; exact H|]. inversion H; subst. right. exists a, b. reflexivity.
Qed.
Lemma contains_not : forall p s, ~ occurs p s -> contains p s = false.
Proof. intros p s H. destruct (contains p s) eqn:E; [|reflexivity]. apply contains_spec in E. contradiction. Qed.

Lemma split_word : forall limit n w cur r, (forall c, In c w -> is_space c = false) ->
  split_words limit n cur (w ++ r) = split_words limit n (cur ++ w) r.
Proof.
  induction w as [|c w IH]; intros cur r H; [rewrite app_nil_r; reflexivity|].
  change ((c :: w) ++ r) with (c :: (w ++ r)). cbn [split_words]. rewrite (H c) by (left; reflexivity). rewrite IH by (intros; apply H; right; assumption). rewrite <- app_assoc. reflexivity.
Qed.
Lemma word_spaces : forall w, word w -> w <> [] /\ forall c, In c w -> is_space c = false.
Proof. intros w [H1 H2]. split; [assumption|]. intros c H. apply not_space_spec. auto. Qed.
Lemma split_three : forall a b c, word a -> word b -> c <> [] -> split_by_space (a ++ [x20] ++ b ++ [x20] ++ c) 3 = [a; b; c].
Proof.
  intros a b c HA HB HC. apply word_spaces in HA as [HA1 HA2]. apply word_spaces in HB as [HB1 HB2].
  unfold split_by_space. rewrite split_word by assumption. change ([] ++ a) with a. change ([x20] ++ b ++ [x20] ++ c) with (x20 :: b ++ [x20] ++ c).
  cbn [split_words]. change (is_space x20) with true. cbv iota. destruct a as [|a0 a]; [congruence|].
  change (0 + zlen [a0 :: a] =? 3 - 1) with false. cbv iota. cbn [app]. f_equal. rewrite split_word by assumption. cbn [app split_words].
  change (is_space x20) with true. cbv iota. destruct b as [|b0 b]; [congruence|]. change (0 + zlen [a0 :: a] + zlen [b0 :: b] =? 3 - 1) with true. cbv iota.
  destruct c; [congruence|]. reflexivity.
Qed.

(** The first line of a request or response: three words. *)
Lemma read_first_line : forall check optional a b c rest sees ending, word a -> word b -> one_line c -> c <> [] -> last c x20 <> x0d ->
  exists sees', read_line_opt check (-1) optional (mkSock ((a ++ [x20] ++ b ++ [x20] ++ c ++ crlf) ++ rest) sees ending)
    = (mkSock rest sees' ending, Ok (a ++ [x20] ++ b ++ [x20] ++ c)).
Proof.
  intros check optional a b c rest sees ending HA HB HC HN HL.
  assert (NW : forall w, word w -> one_line w).
  { intros w [_ H] HI. apply (H _ HI). right. cbn. lia. }
  replace ((a ++ [x20] ++ b ++ [x20] ++ c ++ crlf) ++ rest) with (((a ++ [x20] ++ b ++ [x20] ++ c) ++ [x0d]) ++ x0a :: rest)
    by (unfold crlf; rewrite <- !app_assoc; reflexivity).
  apply C35_line; [| |right; left; lia].
  - intro H. apply in_app_or in H as [H|H]; [|cbn in H; intuition discriminate].
    apply in_app_or in H as [H|H]; [apply (NW _ HA H)|]. apply in_app_or in H as [H|H]; [cbn in H; intuition discriminate|].
    apply in_app_or in H as [H|H]; [apply (NW _ HB H)|]. apply in_app_or in H as [H|H]; [cbn in H; intuition discriminate|]. apply (HC H).
  - exists 1%nat. split; [reflexivity|]. destruct c as [|x c] using rev_ind; [congruence|]. rewrite last_last in HL.
    rewrite !app_assoc, last_last. assumption.
Qed.

Lemma hand_over_um : forall u pieces k, hand_over (um_take u) k pieces = um_all u k pieces.
Proof.
  intros u. induction pieces as [|d r IH]; intro k; [reflexivity|]. cbn. destruct (um_take u k d) as [k' [f|]]; [reflexivity|]. apply IH.
Qed.

(** A framed body is read up to its end. *)
Lemma read_framed : forall K (sink : K -> bytes -> K * option fail) k request fields body wire rest sees ending,
  framed fields body wire -> zlen body < 2 ^ 63 ->
  exists pieces, arrives body pieces /\
    match hand_over sink k pieces with
    | (k', None) => exists sees' n, read_content sink (-1) (map as_read fields) request (mkRd (mkSock (wire ++ rest) sees ending) k 0)
                                  = (mkRd (mkSock rest sees' ending) k' n, Ok (map as_read fields))
    | (k', Some f) => exists s n, read_content sink (-1) (map as_read fields) request (mkRd (mkSock (wire ++ rest) sees ending) k 0)
                                  = (mkRd s k' n, match f with Exn e => Err e | Undef => UB end)
    end.
Proof.
  intros K sink k request fields body wire rest sees ending HF HS. rewrite <- blen_zlen in *. destruct HF as [v HV HD|v wire HN HV HC HCH].
  - rewrite <- blen_zlen in *. unfold read_content. rewrite (get_read _ _ _ HV), (read_dec_long_number v _ HD HS).
    pose proof (blen_nonneg body). replace (blen body <? 0) with false by (symmetry; apply Z.ltb_ge; lia). cbn [Z.leb andb].
    change (0 <=? -1) with false. cbn [andb].
    destruct (read_block_spec sink (-1) (blen body) (mkRd (mkSock (body ++ rest) sees ending) k 0) body rest eq_refl eq_refl) as (ps & E1 & NE & HM).
    + left. lia.
    + exists ps. split; [split; assumption|]. cbn [r_sink r_sock fin] in HM. destruct (hand_over sink k ps) as [k' [f|]].
      * destruct HM as (s & n & ->). exists s, n. destruct f; reflexivity.
      * destruct HM as (v1 & n & -> & _). exists v1, n. reflexivity.
  - unfold read_content. rewrite (get_read_none _ _ HN), (get_read _ _ _ HV).
    replace (bytes_eqb (map to_upper v) (str "CHUNKED")) with true by (symmetry; apply bytes_eqb_spec; rewrite (upper_name _ _ HC); reflexivity).
    unfold read_chunked. cbn [r_sock].
    destruct (chunks_spec sink (-1) body [] wire HCH HS (S (List.length (pending (mkSock (wire ++ rest) sees ending)))) (mkRd (mkSock (wire ++ rest) sees ending) k 0) (map as_read fields) rest)
      as (ps & E1 & NE & HM); [reflexivity|cbn [pending]; rewrite app_length; lia|left; lia|].
    exists ps. split; [split; assumption|]. cbn [r_sink r_sock fin map] in HM. rewrite app_nil_r in HM. destruct (hand_over sink k ps) as [k' [f|]].
    + destruct HM as (s & n & ->). exists s, n. destruct f; reflexivity.
    + destruct HM as (v1 & n & ->). exists v1, n. reflexivity.
Qed.

(** * Choices made from the header *)
Lemma name_upper : forall a b, map to_upper a = map to_upper b -> same_name a b.
Proof.
  unfold same_name. change ascii_lower with to_lower. induction a as [|x a IH]; intros [|y b] H; cbn [map] in *; try discriminate; [reflexivity|].
  inversion H as [[H1 H2]]. rewrite (IH b H2). f_equal. destruct (byte_case x) as (_ & HX & _), (byte_case y) as (_ & HY & _). change (to_lower x = to_lower y). rewrite <- HX, <- HY, H1. reflexivity.
Qed.
Lemma value_or_not : forall name fs, (exists v, first_value name fs v) \/ no_value name fs.
Proof.
  intros name. induction fs as [|[n v] fs IH]; [right; constructor|].
  destruct (bytes_eqb (map ascii_lower n) (map ascii_lower name)) eqn:E.
  - left. exists v, [], n, fs. split; [reflexivity|]. split; [apply bytes_eqb_eq; exact E|constructor].
  - apply other_name in E. destruct IH as [(w & a & m & b & -> & H1 & H2)|IH].
    + left. exists w, ((n, v) :: a), m, b. split; [reflexivity|]. split; [assumption|]. constructor; assumption.
    + right. constructor; assumption.
Qed.
Lemma get_or_empty_first : forall name fs v, first_value name fs v -> get_or_empty name (map as_read fs) = v.
Proof. intros. unfold get_or_empty. rewrite (get_read _ _ _ H). reflexivity. Qed.
Lemma get_or_empty_none : forall name fs, no_value name fs -> get_or_empty name (map as_read fs) = [].
Proof. intros. unfold get_or_empty. rewrite (get_read_none _ _ H). reflexivity. Qed.

Lemma choose_in_spec : forall q k, request_type q k -> choose_in (get_or_empty (str "Content-Type") (map as_read (q_fields q))) (q_path q) = Some k.
Proof.
  intros q k (c & HC & before & t & after & HT & HO & HB & HK & HP). rewrite (get_or_empty_first _ _ _ HC). unfold choose_in.
  apply contains_spec in HO.
  destruct before as [|b1 before]; cbn [app] in HT; unfold types in HT.
  { injection HT as H1 HT2. rewrite <- H1 in HO, HK. rewrite HO. f_equal. destruct k; try reflexivity; discriminate. }
  injection HT as H1 HT2. subst b1. inversion HB as [|? ? HB1 HB2]; subst. rewrite (contains_not _ _ HB1). clear HB HB1.
  destruct before as [|b1 before]; cbn [app] in HT2.
  { injection HT2 as H1 HT2. rewrite <- H1 in HO. rewrite HO. f_equal. destruct k; try reflexivity; discriminate. }
  injection HT2 as H1 HT. subst b1. inversion HB2 as [|? ? HB1 HB]; subst. rewrite (contains_not _ _ HB1). clear HB2 HB1.
  destruct before as [|b1 before]; cbn [app] in HT.
  { injection HT as H1 HT2. rewrite <- H1 in HO. rewrite HO. f_equal. destruct k; try discriminate. rewrite (HP _ eq_refl). reflexivity. }
  injection HT as H1 HT2. subst b1. inversion HB as [|? ? HB1 HB2]; subst. rewrite (contains_not _ _ HB1). clear HB HB1.
  destruct before as [|b1 before]; cbn [app] in HT2.
  { injection HT2 as H1 HT2. rewrite <- H1 in HO. rewrite HO. f_equal. destruct k; try reflexivity; discriminate. }
  injection HT2 as H1 HT. destruct before; discriminate.
Qed.
Lemma choose_out_spec : forall cfg q o, answer_type (f_binary cfg) q o ->
  fst (choose_out cfg (header_get (str "Accept") 0 (map as_read (q_fields q)))) = o.
Proof.
  intros cfg q o H. unfold choose_out. destruct H as [H|a H H1|a H H1 H2|a H H1 H2 H3|a H H1 H2 H3].
  - rewrite (get_read_none _ _ H). reflexivity.
  - rewrite (get_read _ _ _ H). apply contains_spec in H1. rewrite H1. destruct (f_binary cfg); reflexivity.
  - rewrite (get_read _ _ _ H), (contains_not _ _ H1). apply contains_spec in H2. rewrite H2. reflexivity.
  - rewrite (get_read _ _ _ H), (contains_not _ _ H1), (contains_not _ _ H2). apply contains_spec in H3. rewrite H3. reflexivity.
  - rewrite (get_read _ _ _ H), (contains_not _ _ H1), (contains_not _ _ H2), (contains_not _ _ H3). reflexivity.
Qed.
Lemma choose_close_spec : forall q, choose_close (q_http11 q) (get_or_empty (str "Connection") (map as_read (q_fields q))) = false <-> keeps_open q.
Proof.
  intro q. unfold choose_close, keeps_open. destruct (q_http11 q).
  - destruct (value_or_not (str "Connection") (q_fields q)) as [(v & H)|H].
    + rewrite (get_or_empty_first _ _ _ H). split.
      * intros E v' H' HS. assert (v' = v).
        { pose proof (get_read _ _ _ H) as E1. rewrite (get_read _ _ _ H') in E1. congruence. }
        subst v'. apply upper_name in HS. rewrite HS in E. discriminate.
      * intro HK. destruct (bytes_eqb (map to_upper v) (str "CLOSE")) eqn:E; [|reflexivity]. apply bytes_eqb_eq in E.
        exfalso. apply (HK v H). apply name_upper. rewrite E. reflexivity.
    + rewrite (get_or_empty_none _ _ H). split; [|reflexivity]. intros _ v H'. pose proof (get_read_none _ _ H) as E. rewrite (get_read _ _ _ H') in E. discriminate.
  - rewrite negb_false_iff. destruct (value_or_not (str "Connection") (q_fields q)) as [(v & H)|H].
    + rewrite (get_or_empty_first _ _ _ H), bytes_eqb_eq. split.
      * intro E. exists v. split; [assumption|]. apply name_upper. rewrite E. reflexivity.
      * intros (v' & H' & HS). assert (v' = v).
        { pose proof (get_read _ _ _ H) as E1. rewrite (get_read _ _ _ H') in E1. congruence. }
        subst v'. apply upper_name in HS. exact HS.
    + rewrite (get_or_empty_none _ _ H). split; [discriminate|]. intros (v & H' & _). pose proof (get_read_none _ _ H) as E. rewrite (get_read _ _ _ H') in E. discriminate.
Qed.

Lemma version_ok : forall q, one_line (http_version q) /\ http_version q <> [] /\ last (http_version q) x20 <> x0d /\
  (bytes_eqb (http_version q) (str "HTTP/1.1") || bytes_eqb (http_version q) (str "HTTP/1.0")) = true /\
  bytes_eqb (http_version q) (str "HTTP/1.1") = q_http11 q.
Proof.
  intro q. unfold http_version. destruct (q_http11 q).
  - split; [apply one_line_dec; reflexivity|]. repeat split; discriminate.
  - split; [apply one_line_dec; reflexivity|]. repeat split; discriminate.
Qed.
Lemma word_post : word (str "POST").
Proof. split; [discriminate|]. intros c H HS. apply space_spec in HS. cbn in H. decompose [or] H; subst; try discriminate; contradiction. Qed.

Section Requests.
  Variable cfg : config.
  Variable ums : in_type -> unmarshaller.

  Lemma read_request_good : forall st q k o ver name params wire rest sees ending,
    well_formed q -> framed (q_fields q) (q_body q) wire -> request_type q k -> answer_type (f_binary cfg) q o ->
    decodes (ums k) (q_body q) ver name params ->
    exists chunks close sees' t,
      read_request cfg ums st (mkSock (request_head q ++ wire ++ rest) sees ending)
        = (mkSrv o chunks ver close false (s_extra st), mkSock rest sees' ending, Ok t) /\
      (close = false <-> keeps_open q) /\ tb_method t = name /\ tb_data t = Ok (VArray params) /\ (q_http11 q = false -> chunks = false).
  Proof.
    intros st q k o ver name params wire rest sees ending (HP & HF & HS) HFR HK HO HD. unfold read_request.
    destruct (version_ok q) as (V1 & V2 & V3 & V4 & V5).
    destruct (read_first_line true true (str "POST") (q_path q) (http_version q) (flat_map field_text (q_fields q) ++ crlf ++ wire ++ rest) sees ending
                word_post HP V1 V2 V3) as (s1 & E1).
    replace (request_head q ++ wire ++ rest) with
      ((str "POST" ++ [x20] ++ q_path q ++ [x20] ++ http_version q ++ crlf) ++ flat_map field_text (q_fields q) ++ crlf ++ wire ++ rest)
      by (unfold request_head; rewrite <- !app_assoc; reflexivity).
    rewrite E1. change (str "POST" ++ [x20] ++ q_path q ++ [x20] ++ http_version q) with (x50 :: str "OST" ++ [x20] ++ q_path q ++ [x20] ++ http_version q).
    cbv iota. change (x50 :: str "OST" ++ [x20] ++ q_path q ++ [x20] ++ http_version q) with (str "POST" ++ [x20] ++ q_path q ++ [x20] ++ http_version q).
    rewrite (split_three _ _ _ word_post HP V2), V4. cbn [negb].
    destruct (read_head (q_fields q) (wire ++ rest) s1 ending HF) as (s2 & E2). rewrite E2.
    change (bytes_eqb (str "POST") (str "POST")) with true. cbn [negb].
    pose proof (choose_out_spec cfg q o HO) as EO. destruct (choose_out cfg _) as [o' chunks]. cbn [fst] in EO. subst o'.
    rewrite (choose_in_spec _ _ HK).
    destruct (read_framed _ (um_take (ums k)) (um_init (ums k)) true (q_fields q) (q_body q) wire rest s2 ending HFR HS) as (ps & EP & HM).
    rewrite hand_over_um in HM. destruct (HD ps EP) as (u1 & u2 & HA & HFI & HV & HN & HT). rewrite HA in HM.
    destruct HM as (s3 & n & ->). cbn [r_sink r_sock]. rewrite HFI, V5, HV.
    eexists (if q_http11 q then chunks else false), _, s3, _. split; [reflexivity|]. split; [apply choose_close_spec|]. split; [exact HN|]. split; [exact HT|]. intros ->. reflexivity.
  Qed.
End Requests.
