(** C106: where the body of a request ends. *)
From Coq Require Import Lia.
From Verif Require Import Base Value Text M_Marshal M_BinUnmarshal M_TreeBuilder M_Base64 M_Json M_Xml M_Url M_Http M_HttpIO M_HttpWriter M_Registry M_Server M_XmlUm
  S_Http S_Server S_Framing L_Base L_Http L_HttpIO L_HttpIO2 L_HttpIO3 L_HttpIO4 L_HttpIO5 L_Server L_Server2 P_HttpIO P_Server.

(** ** C106 *)
Lemma no_values : forall name fs, field_values name fs [] -> no_value name fs.
Proof. intros name fs H. remember [] as vs eqn:E. induction H as [|n v fs vs S H IH|n v fs vs S H IH]; [constructor|discriminate|]. constructor; [exact S|apply IH; exact E]. Qed.
Lemma first_of_values : forall name fs v vs, field_values name fs (v :: vs) -> first_value name fs v.
Proof.
  intros name fs v vs H. remember (v :: vs) as l eqn:E. induction H; [discriminate| |].
  - inversion E; subst. exists [], n, fs. repeat split; [assumption|constructor].
  - destruct (IHfield_values E) as (a & n' & b & -> & H1 & H2). exists ((n, v0) :: a), n', b. repeat split; [exact H1|]. constructor; assumption.
Qed.

(** A header that tells the end of the body, but not in both ways: the body goes to the consumer, the trailer fields to the
    header, and what follows is left for the next request. *)
Theorem C106_framing_partial : forall K (consumer : K -> bytes -> K * option fail) k limit fields fr body trailer wire rest sees ending,
  Forall field_ok fields -> rfc_framing fields fr -> rfc_body fr body trailer wire ->
  (fr = F_chunked -> field_values (str "Content-Length") fields []) ->
  zlen body < 2 ^ 63 -> (limit < 0 \/ zlen body <= limit < 2 ^ 31) ->
  exists s1 h, read_header false [] (mkSock (flat_map field_text fields ++ crlf ++ wire ++ rest) sees ending) = (s1, Ok h) /\
  exists pieces, arrives body pieces /\
    let '(r, x) := read_content consumer limit h true (mkRd s1 k 0) in
    match hand_over consumer k pieces with
    | (k', None) => r_sink r = k' /\ pending (r_sock r) = rest /\
                    x = Ok (fold_left (fun h f => header_add (fst f) (snd f) h) trailer h)
    | (k', Some f) => r_sink r = k' /\ x = match f with Exn e => Err e | Undef => UB end
    end.
Proof.
  intros K consumer k limit fields fr body trailer wire rest sees ending FO FR BD CL HB HL. destruct FR as [fs v TE EQ|fs vs n TE VS NE DN|fs TE VS].
  - inversion BD; subst. eapply C37_chunked; eauto; [apply no_values; apply CL; reflexivity|eapply first_of_values; exact TE].
  - inversion BD; subst. destruct vs as [|v vs]; [congruence|]. inversion DN; subst.
    destruct (C37_content_length K consumer k limit true fs wire rest sees ending v FO (first_of_values _ _ _ _ VS) ltac:(assumption) HB HL) as (s1 & h & E & ps & A & X).
    exists s1, h. split; [exact E|]. exists ps. split; [exact A|]. destruct (read_content consumer limit h true (mkRd s1 k 0)) as [r x].
    destruct (hand_over consumer k ps) as [k' [f|]]; [exact X|]. cbn [fold_left]. tauto.
  - inversion BD; subst. cbn [app]. destruct (read_head fs rest sees ending FO) as (v1 & E1). exists (mkSock rest v1 ending), (map as_read fs). split; [exact E1|].
    exists []. split; [split; [reflexivity|constructor]|]. unfold read_content. rewrite (get_read_none _ _ (no_values _ _ VS)), (get_read_none _ _ (no_values _ _ TE)).
    cbn. auto.
Qed.
Print Assumptions C106_framing_partial.

(** A sample: two fields with the same length. *)
Definition lengths : list (bytes * bytes) := [(str "Content-Length", str "5"); (str "Host", str "a"); (str "content-length", str "5")].
Example C106_sample : Forall field_ok lengths /\ rfc_framing lengths (F_length 5) /\ rfc_body (F_length 5) (str "hello") [] (str "hello").
Proof.
  split; [repeat (constructor; [apply field_okb_ok; vm_compute; reflexivity|]); constructor|]. split; [|exact (body_length (str "hello"))].
  assert (N : forall a b, bytes_eqb (map ascii_lower a) (map ascii_lower b) = false -> ~ same_name a b).
  { intros a b E X. apply bytes_eqb_spec in X. congruence. }
  apply rfc_length with (vs := [str "5"; str "5"]); [| |discriminate|].
  - repeat (apply values_other; [apply N; vm_compute; reflexivity|]). apply values_nil.
  - apply values_same; [vm_compute; reflexivity|]. apply values_other; [apply N; vm_compute; reflexivity|]. apply values_same; [vm_compute; reflexivity|]. apply values_nil.
  - constructor; [|constructor; [|constructor]]; (apply (dec_one x35 5); [reflexivity|lia]).
Qed.

(** ** What does not hold *)
Lemma dec_number_nonneg : forall v n, dec_number v n -> 0 <= n.
Proof. intros v n H. induction H; lia. Qed.
(** A request with both fields ends elsewhere: of whatever follows the header, as many bytes as Content-Length says are its body
    (every such request, every n). *)
Theorem C106_both_refuted : forall limit fields v n following sees ending,
  Forall field_ok fields -> first_value (str "Content-Length") fields v -> dec_number v n -> n <= zlen following -> n < 2 ^ 31 -> limit < 0 ->
  exists s1 h, read_header false [] (mkSock (flat_map field_text fields ++ crlf ++ following) sees ending) = (s1, Ok h) /\
  let '(r, x) := read_content keep limit h true (mkRd s1 [] 0) in
  x = Ok h /\ r_sink r = ztake n following /\ pending (r_sock r) = zdrop n following.
Proof.
  intros limit fields v n following sees ending FO FV DN HN HB HL. pose proof (dec_number_nonneg _ _ DN) as NN.
  assert (LT : zlen (ztake n following) = n) by (rewrite zlen_ztake; lia).
  destruct (C37_content_length bytes keep [] limit true fields (ztake n following) (zdrop n following) sees ending v FO FV) as (s1 & h & E & ps & [A1 A2] & X).
  { rewrite LT. exact DN. } { lia. } { left. exact HL. }
  rewrite ztake_zdrop in E. exists s1, h. split; [exact E|].
  match type of X with let '(_, _) := ?T in _ => destruct T as [r x] eqn:ER end.
  match goal with |- let '(_, _) := ?T in _ => replace T with (r, x) by (symmetry; exact ER) end. clear ER.
  assert (HK : forall ps k, hand_over keep k ps = (k ++ concat ps, None)).
  { clear. induction ps as [|p ps IH]; intro k; cbn; [rewrite app_nil_r; reflexivity|]. rewrite IH, <- app_assoc. reflexivity. }
  assert (X' : r_sink r = [] ++ concat ps /\ x = Ok h /\ pending (r_sock r) = zdrop n following).
  { rewrite HK in X. exact X. }
  clear X. rename X' into X. destruct X as (X1 & X2 & X3). rewrite A1 in X1. cbn in X1. auto.
Qed.
Print Assumptions C106_both_refuted.

(** So a server runs a call that is hidden in the content of a request that is one chunk and no call at all. *)
Definition both (n : bytes) : list (bytes * bytes) :=
  [(str "Content-Type", str "application/x-frpc"); (str "Transfer-Encoding", str "chunked"); (str "Content-Length", n)].
Definition hidden : bytes := request_head q1 ++ echo_body.
Definition in_one_chunk : bytes := str "7a" ++ [] ++ crlf ++ hidden ++ crlf ++ (str "0" ++ [] ++ crlf ++ flat_map field_text [] ++ crlf).
Theorem C106_server_refuted :
  Forall field_ok (both (str "4")) /\ rfc_framing (both (str "4")) F_chunked /\ rfc_body F_chunked hidden [] in_one_chunk /\
  let '(c, x) := sample_serve srv_init (mkSock (head (str "HTTP/1.1") (both (str "4")) ++ in_one_chunk) [] Closed) 0 in c_world c = 1.
Proof.
  split; [repeat (constructor; [apply field_okb_ok; vm_compute; reflexivity|]); constructor|].
  assert (N : forall a b, bytes_eqb (map ascii_lower a) (map ascii_lower b) = false -> ~ same_name a b).
  { intros a b E X. apply bytes_eqb_spec in X. congruence. }
  split; [apply rfc_chunked with (v := str "chunked"); [|reflexivity]|split].
  - apply values_other; [apply N; vm_compute; reflexivity|]. apply values_same; [vm_compute; reflexivity|]. apply values_other; [apply N; vm_compute; reflexivity|]. apply values_nil.
  - apply body_chunked. rewrite <- (app_nil_r hidden). unfold in_one_chunk.
    assert (EXT : chunk_ext []) by (split; [intros []|left; reflexivity]).
    assert (H7 : hex_digit x37 7) by (left; cbn; lia). assert (HA : hex_digit x61 10) by (right; right; cbn; lia). assert (H0 : hex_digit x30 0) by (left; cbn; lia).
    apply chunked_more; [|discriminate|exact EXT|].
    + change (hex_number ([x37] ++ [x61]) (zlen hidden)). replace (zlen hidden) with (16 * 7 + 10) by (vm_compute; reflexivity). apply hex_more; [apply hex_one; exact H7|exact HA].
    + apply chunked_last; [apply hex_one; exact H0|exact EXT|constructor].
  - vm_compute. reflexivity.
Qed.
Print Assumptions C106_server_refuted.

(** Headers that must be refused are not: of two lengths the first is taken, what follows the digits of a length is ignored,
    and a length whose field name is followed by a space is none, so that the body is the next request, which is run. *)
Definition refused_head (fields : list (bytes * bytes)) : sock := mkSock (flat_map field_text fields ++ crlf ++ str "hello") [] Closed.
Definition content_of (s : sock) : option bytes :=
  match read_header false [] s with
  | (s1, Ok h) => match read_content keep (-1) h true (mkRd s1 [] 0) with (r, Ok _) => Some (r_sink r) | _ => None end
  | _ => None
  end.
Theorem C106_refused_refuted :
  rfc_refused [(str "Content-Length", str "5"); (str "Content-Length", str "3")] /\
  content_of (refused_head [(str "Content-Length", str "5"); (str "Content-Length", str "3")]) = Some (str "hello") /\
  rfc_refused [(str "Content-Length", str "5, 3")] /\ content_of (refused_head [(str "Content-Length", str "5, 3")]) = Some (str "hello") /\
  (let fields := [(str "Content-Type", str "application/x-frpc"); (str "Content-Length ", str "122")] in rfc_refused fields /\
   let '(c, x) := sample_serve srv_init (mkSock (head (str "HTTP/1.1") fields ++ hidden) [] Closed) 0 in c_world c = 1).
Proof.
  assert (N : forall a b, bytes_eqb (map ascii_lower a) (map ascii_lower b) = false -> ~ same_name a b).
  { intros a b E X. apply bytes_eqb_spec in X. congruence. }
  split; [|split; [vm_compute; reflexivity|split; [|split; [vm_compute; reflexivity|split; [|vm_compute; reflexivity]]]]].
  - apply refused_two with (vs := [str "5"; str "3"]) (a := str "5") (b := str "3") (n := 5) (m := 3).
    + repeat (apply values_other; [apply N; vm_compute; reflexivity|]). apply values_nil.
    + repeat (apply values_same; [vm_compute; reflexivity|]). apply values_nil.
    + left. reflexivity.
    + right. left. reflexivity.
    + apply (dec_one x35 5); [reflexivity|lia].
    + apply (dec_one x33 3); [reflexivity|lia].
    + discriminate.
  - apply refused_length with (vs := [str "5, 3"]) (v := str "5, 3").
    + repeat (apply values_other; [apply N; vm_compute; reflexivity|]). apply values_nil.
    + repeat (apply values_same; [vm_compute; reflexivity|]). apply values_nil.
    + left. reflexivity.
    + assert (D : forall v n, dec_number v n -> Forall (fun c => 48 <= b2z c <= 57) v).
      { intros v n X. induction X; [constructor; [lia|constructor]|]. apply Forall_app. split; [assumption|]. constructor; [lia|constructor]. }
      intros n X. apply D in X. inversion X as [|? ? _ X2]; subst. inversion X2 as [|? ? X3 _]; subst. cbn in X3. lia.
  - apply refused_space with (n := str "Content-Length") (v := str "122"). right. left. reflexivity.
Qed.
Print Assumptions C106_refused_refuted.

(** A chunk size written 0x5, which is none, is taken for five. *)
Lemma hex_first : forall s n, hex_number s n -> s <> [] /\ Forall (fun c => b2z c <> 120) s.
Proof.
  assert (D : forall c d, hex_digit c d -> b2z c <> 120) by (intros c d [H|[H|H]]; lia).
  intros s n H. induction H as [c d H|s n c d H [IH1 IH2] HD].
  - split; [discriminate|]. constructor; [exact (D _ _ H)|constructor].
  - split; [destruct s; discriminate|]. apply Forall_app. split; [exact IH2|]. constructor; [exact (D _ _ HD)|constructor].
Qed.
Lemma no_such_size : forall size ext rest more n, hex_number size n -> chunk_ext ext -> size ++ ext ++ crlf ++ rest = x30 :: x78 :: more -> False.
Proof.
  intros size ext rest more n H [_ E] EQ. destruct (hex_first _ _ H) as [NE F]. destruct size as [|a size]; [congruence|]. cbn [app] in EQ. inversion EQ as [[E1 E2]].
  destruct size as [|b size].
  - cbn [app] in E2. destruct E as [-> |[r ->]]; cbn in E2; discriminate.
  - cbn [app] in E2. inversion E2; subst. inversion F as [|? ? _ F2]; subst. inversion F2 as [|? ? F3 _]; subst. apply F3. reflexivity.
Qed.
Definition bad_size : bytes := str "0x5" ++ crlf ++ str "hello" ++ crlf ++ str "0" ++ crlf ++ crlf.
Theorem C106_chunk_size_refuted : (forall body trailer rest, ~ chunked body trailer (bad_size ++ rest)) /\
  content_of (mkSock (flat_map field_text [(str "Transfer-Encoding", str "chunked")] ++ crlf ++ bad_size) [] Closed) = Some (str "hello").
Proof.
  split; [|vm_compute; reflexivity]. intros body trailer rest X. remember (bad_size ++ rest) as w eqn:EW. destruct X as [size ext trailer HS HE HT|size ext data body trailer wire HS HN HE HC].
  - exact (no_such_size _ _ _ _ _ HS HE EW).
  - exact (no_such_size _ _ _ _ _ HS HE EW).
Qed.
Print Assumptions C106_chunk_size_refuted.
